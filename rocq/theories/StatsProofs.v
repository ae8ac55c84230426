(** Doubles that hold whole numbers below 2^53. *)
From Verif Require Import Base Codes Stats StatsSpec.

Lemma digits_log p : Zdigits2 (Z.pos p) = Z.log2 (Z.pos p) + 1.
Proof.
  cbn [Zdigits2]. induction p as [p IH|p IH|]; cbn [digits2_pos]; [| |reflexivity].
  - rewrite Pos2Z.inj_succ, IH, (Pos2Z.inj_xI p), Z.log2_succ_double by lia. lia.
  - rewrite Pos2Z.inj_succ, IH, (Pos2Z.inj_xO p), Z.log2_double by lia. lia.
Qed.
Lemma digits_z a : 0 < a -> Zdigits2 a = Z.log2 a + 1.
Proof. destruct a; try lia. intros _. apply digits_log. Qed.
Lemma digits_shift a k : 0 < a -> 0 <= k -> Zdigits2 (a * 2 ^ k) = Z.log2 a + 1 + k.
Proof.
  intros A K. rewrite digits_z; [|assert (0 < 2 ^ k) by (apply Z.pow_pos_nonneg; lia); nia].
  rewrite Z.log2_mul_pow2; lia.
Qed.

Lemma iter_shift p x : 0 < x ->
  iter_pos shr_1 p (Build_shr_record (x * 2 ^ Z.pos p) false false) = Build_shr_record x false false.
Proof.
  revert x. assert (One : forall x, 0 < x -> shr_1 (Build_shr_record (2 * x) false false) = Build_shr_record x false false).
  { intros [|x|x] X; try lia. reflexivity. }
  induction p as [p IH|p IH|]; intros x X; cbn [iter_pos].
  - assert (P : 0 < 2 ^ Z.pos p) by (apply Z.pow_pos_nonneg; lia).
    replace (x * 2 ^ Z.pos p~1) with (2 * ((x * 2 ^ Z.pos p) * 2 ^ Z.pos p)).
    2:{ replace (Z.pos p~1) with (1 + Z.pos p + Z.pos p) by lia. rewrite !Z.pow_add_r by lia. ring. }
    rewrite One by nia. rewrite IH by nia. apply IH, X.
  - assert (P : 0 < 2 ^ Z.pos p) by (apply Z.pow_pos_nonneg; lia).
    replace (x * 2 ^ Z.pos p~0) with ((x * 2 ^ Z.pos p) * 2 ^ Z.pos p).
    2:{ replace (Z.pos p~0) with (Z.pos p + Z.pos p) by lia. rewrite !Z.pow_add_r by lia. ring. }
    rewrite IH by nia. apply IH, X.
  - replace (x * 2 ^ 1) with (2 * x) by ring. apply One, X.
Qed.
Lemma shr_exact x e j : 0 < x -> 0 <= j ->
  shr (Build_shr_record (x * 2 ^ j) false false) e j = (Build_shr_record x false false, e + j).
Proof.
  intros X J. destruct j as [|p|p]; try lia; cbn [shr].
  - rewrite Z.pow_0_r, Z.mul_1_r, Z.add_0_r. reflexivity.
  - rewrite iter_shift by exact X. reflexivity.
Qed.

(** The double with value [a], 0 < a < 2^53. *)
Definition canon (a : Z) : spec_float :=
  let d := Z.log2 a + 1 in S754_finite false (Z.to_pos (a * 2 ^ (53 - d))) (d - 53).

Lemma small_log a : 0 < a < 2 ^ 53 -> 0 <= Z.log2 a <= 52.
Proof. intros [A B]. split; [apply Z.log2_nonneg|]. apply Z.log2_lt_pow2 in B; lia. Qed.

Lemma fexp_small d : 0 <= d <= 2000 -> fexp 53 1024 d = d - 53.
Proof. intros D. unfold fexp, emin. lia. Qed.

Lemma round_exact a k : 0 < a < 2 ^ 53 -> 53 - (Z.log2 a + 1) <= k ->
  binary_round_aux 53 1024 false (a * 2 ^ k) (- k) loc_Exact = canon a.
Proof.
  intros A K. pose proof (small_log A) as L. unfold binary_round_aux, shr_fexp. cbn [shr_record_of_loc].
  rewrite digits_shift by lia. replace (Z.log2 a + 1 + k + - k) with (Z.log2 a + 1) by ring.
  rewrite fexp_small by lia. set (d := Z.log2 a + 1) in *.
  assert (P : 0 < 2 ^ (53 - d)) by (apply Z.pow_pos_nonneg; lia).
  replace (a * 2 ^ k) with ((a * 2 ^ (53 - d)) * 2 ^ (d - 53 - - k)).
  2:{ rewrite <- Z.mul_assoc, <- Z.pow_add_r by lia. do 2 f_equal. lia. }
  rewrite shr_exact by nia. cbn [shr_m loc_of_shr_record round_nearest_even].
  rewrite digits_shift by lia. fold d.
  replace (fexp 53 1024 (d + (53 - d) + (- k + (d - 53 - - k))) - (- k + (d - 53 - - k))) with 0.
  2:{ replace (d + (53 - d) + (- k + (d - 53 - - k))) with d by ring. rewrite fexp_small by lia. lia. }
  cbn [shr shr_m]. unfold canon. fold d.
  destruct (a * 2 ^ (53 - d)) as [|m|m] eqn:M; try nia.
  replace (- k + (d - 53 - - k)) with (d - 53) by ring.
  replace (Zle_bool (d - 53) (1024 - 53)) with true by (symmetry; apply Z.leb_le; lia). reflexivity.
Qed.

Lemma shl_align_scaled m e e' : e' <= e -> Z.pos (fst (shl_align m e e')) = Z.pos m * 2 ^ (e - e').
Proof.
  intros H. unfold shl_align. destruct (e' - e) as [|p|p] eqn:E; try lia; cbn [fst].
  - replace (e - e') with 0 by lia. lia.
  - rewrite shift_pos_correct. replace (e - e') with (Z.pos p) by lia. change (2 ^ Z.pos p) with (Z.pow_pos 2 p). ring.
Qed.

Lemma normal_exact a k : 0 < a < 2 ^ 53 -> 0 <= k ->
  binary_normalize 53 1024 (a * 2 ^ k) (- k) false = canon a.
Proof.
  intros A K. pose proof (small_log A) as L. assert (P : 0 < 2 ^ k) by (apply Z.pow_pos_nonneg; lia).
  pose proof (@digits_shift a k ltac:(lia) K) as D.
  unfold binary_normalize. destruct (a * 2 ^ k) as [|m|m] eqn:M; try nia.
  unfold binary_round. cbn [Zdigits2] in D. rewrite D.
  replace (Z.log2 a + 1 + k + - k) with (Z.log2 a + 1) by ring. rewrite fexp_small by lia. set (d := Z.log2 a + 1) in *.
  destruct (Z.le_gt_cases (- k) (d - 53)) as [C|C].
  - unfold shl_align. destruct (d - 53 - - k) as [|p|p] eqn:E; try lia; rewrite <- M; apply round_exact; lia.
  - pose proof (@shl_align_scaled m (- k) (d - 53) ltac:(lia)) as S1.
    assert (S2 : snd (shl_align m (- k) (d - 53)) = d - 53).
    { unfold shl_align. destruct (d - 53 - - k) eqn:E; try lia. reflexivity. }
    destruct (shl_align m (- k) (d - 53)) as [mz ez]. cbn [fst snd] in S1, S2. subst ez. rewrite S1, <- M, <- Z.mul_assoc, <- Z.pow_add_r by lia.
    replace (k + (- k - (d - 53))) with (53 - d) by ring. replace (d - 53) with (- (53 - d)) by ring.
    apply round_exact; lia.
Qed.

Lemma double_canon a : 0 < a < 2 ^ 53 -> double a = canon a.
Proof.
  intros A. unfold double. rewrite <- (@normal_exact a 0 A) by lia. rewrite Z.pow_0_r, Z.mul_1_r. reflexivity.
Qed.
Lemma canon_m a : 0 < a < 2 ^ 53 ->
  Z.pos (Z.to_pos (a * 2 ^ (53 - (Z.log2 a + 1)))) = a * 2 ^ (53 - (Z.log2 a + 1)).
Proof.
  intros A. pose proof (small_log A). apply Z2Pos.id.
  assert (0 < 2 ^ (53 - (Z.log2 a + 1))) by (apply Z.pow_pos_nonneg; lia). nia.
Qed.

Lemma double_add a b : 0 <= a -> 0 <= b -> a + b < 2 ^ 53 -> dadd (double a) (double b) = double (a + b).
Proof.
  intros A B H. unfold dadd.
  destruct (Z.eq_dec a 0) as [->|A0].
  { destruct (Z.eq_dec b 0) as [->|B0]; [reflexivity|]. rewrite Z.add_0_l, (@double_canon b) by lia. reflexivity. }
  destruct (Z.eq_dec b 0) as [->|B0]. { rewrite Z.add_0_r, (@double_canon a) by lia. reflexivity. }
  rewrite (@double_canon a), (@double_canon b), (@double_canon (a + b)) by lia.
  pose proof (@small_log a ltac:(lia)) as La. pose proof (@small_log b ltac:(lia)) as Lb.
  unfold canon at 1 2. cbn [SFadd cond_Zopp].
  set (ez := Z.min (Z.log2 a + 1 - 53) (Z.log2 b + 1 - 53)).
  rewrite !shl_align_scaled by lia. rewrite !canon_m by lia.
  rewrite <- !Z.mul_assoc, <- !Z.pow_add_r by lia.
  replace (53 - (Z.log2 a + 1) + (Z.log2 a + 1 - 53 - ez)) with (- ez) by ring.
  replace (53 - (Z.log2 b + 1) + (Z.log2 b + 1 - 53 - ez)) with (- ez) by ring.
  rewrite <- Z.mul_add_distr_r. rewrite <- (@normal_exact (a + b) (- ez)) by lia. rewrite Z.opp_involutive. reflexivity.
Qed.

Lemma double_mul a b : 0 <= a -> 0 <= b -> a * b < 2 ^ 53 -> a < 2 ^ 53 -> b < 2 ^ 53 -> dmul (double a) (double b) = double (a * b).
Proof.
  intros A B H Ha Hb. unfold dmul.
  destruct (Z.eq_dec a 0) as [->|A0].
  { destruct (Z.eq_dec b 0) as [->|B0]; [reflexivity|]. rewrite (@double_canon b) by lia. reflexivity. }
  destruct (Z.eq_dec b 0) as [->|B0]. { rewrite Z.mul_0_r, (@double_canon a) by lia. reflexivity. }
  assert (0 < a * b) by nia.
  rewrite (@double_canon a), (@double_canon b), (@double_canon (a * b)) by lia.
  pose proof (@small_log a ltac:(lia)) as La. pose proof (@small_log b ltac:(lia)) as Lb.
  pose proof (@small_log (a * b) ltac:(lia)) as Lab.
  unfold canon at 1 2. cbn [SFmul xorb]. rewrite Pos2Z.inj_mul, !canon_m by lia.
  pose proof (@Z.log2_mul_below a b ltac:(lia) ltac:(lia)) as Low.
  set (da := Z.log2 a + 1) in *. set (db := Z.log2 b + 1) in *.
  replace (a * 2 ^ (53 - da) * (b * 2 ^ (53 - db))) with ((a * b) * 2 ^ (53 - da + (53 - db))) by (rewrite Z.pow_add_r by lia; ring).
  replace (da - 53 + (db - 53)) with (- (53 - da + (53 - db))) by ring.
  apply round_exact; lia.
Qed.

Lemma double_lt a b : 0 <= a < 2 ^ 53 -> 0 <= b < 2 ^ 53 -> SFltb (double a) (double b) = (a <? b).
Proof.
  intros A B. symmetry.
  destruct (Z.eq_dec a 0) as [->|A0].
  { destruct (Z.eq_dec b 0) as [->|B0]; [reflexivity|]. rewrite (@double_canon b) by lia. apply Z.ltb_lt; lia. }
  destruct (Z.eq_dec b 0) as [->|B0]. { rewrite (@double_canon a) by lia. apply Z.ltb_ge; lia. }
  rewrite (@double_canon a), (@double_canon b) by lia. unfold canon, SFltb. cbn [SFcompare].
  pose proof (@small_log a ltac:(lia)) as La. pose proof (@small_log b ltac:(lia)) as Lb.
  destruct (Z.compare_spec (Z.log2 a + 1 - 53) (Z.log2 b + 1 - 53)) as [C|C|C].
  - pose proof (@canon_m a ltac:(lia)) as Ma. pose proof (@canon_m b ltac:(lia)) as Mb.
    set (ma := Z.to_pos (a * _)) in *. set (mb := Z.to_pos (b * _)) in *. clearbody ma mb.
    replace (Z.log2 b) with (Z.log2 a) in Mb by lia.
    assert (P : 0 < 2 ^ (53 - (Z.log2 a + 1))) by (apply Z.pow_pos_nonneg; lia).
    change (Pcompare ma mb Eq) with (ma ?= mb)%positive.
    destruct (Z.ltb_spec a b) as [X|X]; destruct (Pos.compare_spec ma mb); try reflexivity; subst; nia.
  - apply Z.ltb_lt. apply Z.log2_lt_cancel. lia.
  - apply Z.ltb_ge. enough (b < a) by lia. apply Z.log2_lt_cancel. lia.
Qed.

Lemma double_is n : 0 <= n < 2 ^ 53 -> is_number (double n) n.
Proof.
  intros N. destruct (Z.eq_dec n 0) as [->|N0]; [split; reflexivity|].
  rewrite double_canon by lia. pose proof (@small_log n ltac:(lia)) as L. unfold canon. cbn [is_number]. split; [reflexivity|].
  rewrite canon_m by lia. destruct (0 <=? Z.log2 n + 1 - 53) eqn:E.
  - apply Z.leb_le in E. replace (Z.log2 n + 1) with 53 by lia. rewrite !Z.sub_diag. rewrite Z.pow_0_r. ring.
  - do 2 f_equal. lia.
Qed.

(** ** Division *)

(** The location [l] says where the fraction [r / b] lies between 0 and 1. *)
Definition located (b r : Z) (l : location) : Prop :=
  match l with
  | loc_Exact => r = 0
  | loc_Inexact Lt => 0 < 2 * r < b
  | loc_Inexact Eq => 2 * r = b
  | loc_Inexact Gt => b < 2 * r
  end.
Lemma new_located b r : 0 < b -> 0 <= r < b -> located b r (new_location b r).
Proof.
  intros B R. unfold new_location, new_location_even, new_location_odd.
  destruct (Z.eq_dec r 0) as [->|Z0]; [destruct (Z.even b); reflexivity|].
  assert (ZF : Zeq_bool r 0 = false) by (destruct (Zeq_bool r 0) eqn:T; [apply Zeq_bool_eq in T; lia|reflexivity]).
  destruct (Z.even b) eqn:E; cbv beta; rewrite ZF.
  - destruct (Z.compare_spec (2 * r) b); cbn [located]; lia.
  - assert (O : Z.odd b = true) by (rewrite <- Z.negb_even, E; reflexivity). apply Z.odd_spec in O. destruct O as [c ->].
    destruct (Z.compare_spec (2 * r + 1) (2 * c + 1)); cbn [located]; lia.
Qed.
Lemma loc_record m l : loc_of_shr_record (shr_record_of_loc m l) = l.
Proof. destruct l as [|[]]; reflexivity. Qed.
Lemma loc_record_m m l : shr_m (shr_record_of_loc m l) = m.
Proof. destruct l as [|[]]; reflexivity. Qed.

Lemma round_near q b r l : 0 < b -> 0 <= r < b -> located b r l ->
  (round_nearest_even q l = q \/ round_nearest_even q l = q + 1) /\
  2 * Z.abs (round_nearest_even q l * b - (q * b + r)) <= b.
Proof.
  intros B R L. destruct l as [|[]]; cbn [located round_nearest_even] in *.
  - split; [tauto|]. lia.
  - destruct (Z.even q); split; try tauto; lia.
  - split; [tauto|]. lia.
  - split; [tauto|]. lia.
Qed.

(** Dropping one bit. *)
Lemma shr_one q b r l : 0 < q -> 0 < b -> 0 <= r < b -> located b r l ->
  let s := shr_1 (shr_record_of_loc q l) in
  shr_m s = q / 2 /\ located (2 * b) (q mod 2 * b + r) (loc_of_shr_record s).
Proof.
  intros Q B R L s. subst s.
  destruct q as [|[p|p|]|p]; try lia.
  - replace (Z.pos p~1 / 2) with (Z.pos p). 2:{ rewrite Pos2Z.inj_xI. rewrite Z.add_comm, Z.mul_comm, Z.div_add by lia. reflexivity. }
    replace (Z.pos p~1 mod 2) with 1. 2:{ rewrite Pos2Z.inj_xI, Z.add_comm, Z.mul_comm, Z.mod_add by lia. reflexivity. }
    destruct l as [|[]]; cbn [shr_record_of_loc shr_1 orb shr_m loc_of_shr_record located] in *; split; try reflexivity; lia.
  - replace (Z.pos p~0 / 2) with (Z.pos p). 2:{ rewrite Pos2Z.inj_xO, Z.mul_comm, Z.div_mul by lia. reflexivity. }
    replace (Z.pos p~0 mod 2) with 0. 2:{ rewrite Pos2Z.inj_xO, Z.mul_comm, Z.mod_mul by lia. reflexivity. }
    destruct l as [|[]]; cbn [shr_record_of_loc shr_1 orb shr_m loc_of_shr_record located] in *; split; try reflexivity; lia.
  - change (1 / 2) with 0. change (1 mod 2) with 1.
    destruct l as [|[]]; cbn [shr_record_of_loc shr_1 orb shr_m loc_of_shr_record located] in *; split; try reflexivity; lia.
Qed.

Lemma log_range a n : 0 <= n -> 2 ^ n <= a < 2 ^ (n + 1) -> Z.log2 a = n.
Proof. intros N A. apply Z.log2_unique; [exact N|]. replace (Z.succ n) with (n + 1) by lia. exact A. Qed.

(** The second half of rounding: [m] has 53 bits or is 2^53. *)
Lemma round_end m e : 2 ^ 52 <= m <= 2 ^ 53 -> -500 <= e <= 500 ->
  exists k m', 0 <= k <= 1 /\ m = Z.pos m' * 2 ^ k /\ 2 ^ 52 <= Z.pos m' < 2 ^ 53 /\
  (let '(mrs, e'') := shr_fexp 53 1024 m e loc_Exact in
   match shr_m mrs with
   | Z0 => S754_zero false
   | Zpos m => if Zle_bool e'' (1024 - 53) then S754_finite false m e'' else S754_infinity false
   | _ => S754_nan
   end) = S754_finite false m' (e + k).
Proof.
  intros M E. unfold shr_fexp. cbn [shr_record_of_loc].
  destruct (Z.eq_dec m (2 ^ 53)) as [->|N].
  - exists 1, (Z.to_pos (2 ^ 52)). split; [lia|]. split; [reflexivity|]. split; [split; [discriminate|reflexivity]|].
    change (Zdigits2 (2 ^ 53)) with 54. unfold fexp, emin. replace (Z.max (54 + e - 53) (3 - 1024 - 53) - e) with 1 by lia.
    replace (2 ^ 53) with (2 ^ 52 * 2 ^ 1) by reflexivity. rewrite shr_exact by lia. cbn [shr_m]. change (2 ^ 52) with (Z.pos 4503599627370496).
    cbv iota. replace (Zle_bool (e + 1) (1024 - 53)) with true by (symmetry; apply Z.leb_le; lia). reflexivity.
  - exists 0, (Z.to_pos m). split; [lia|]. rewrite Z2Pos.id by (change (2 ^ 52) with 4503599627370496 in M; lia). split; [ring|]. split; [lia|].
    assert (0 < m) by (change (2 ^ 52) with 4503599627370496 in M; lia).
    rewrite (@digits_z m), (@log_range m 52) by (change (2 ^ (52 + 1)) with (2 ^ 53); lia).
    unfold fexp, emin. replace (Z.max (52 + 1 + e - 53) (3 - 1024 - 53) - e) with 0 by lia. cbn [shr shr_m].
    destruct m as [|m|m]; try lia. replace (Zle_bool e (1024 - 53)) with true by (symmetry; apply Z.leb_le; lia).
    rewrite Z.add_0_r. reflexivity.
Qed.

Lemma round_quotient q b r l e : 0 < b -> 0 <= r < b -> located b r l -> 2 ^ 52 <= q < 2 ^ 54 -> -400 <= e <= 400 ->
  exists k m, 0 <= k <= 2 /\ 2 ^ 52 <= Z.pos m < 2 ^ 53 /\
    binary_round_aux 53 1024 false q e l = S754_finite false m (e + k) /\
    2 * Z.abs (Z.pos m * 2 ^ k * b - (q * b + r)) <= 2 ^ k * b.
Proof.
  intros B R L Q E. unfold binary_round_aux. assert (Q0 : 0 < q) by (change (2 ^ 52) with 4503599627370496 in Q; lia).
  destruct (Z.lt_ge_cases q (2 ^ 53)) as [C|C].
  - unfold shr_fexp at 1. rewrite (@digits_z q Q0), (@log_range q 52) by (change (2 ^ (52 + 1)) with (2 ^ 53); lia).
    unfold fexp at 1. unfold emin. replace (Z.max (52 + 1 + e - 53) (3 - 1024 - 53) - e) with 0 by lia. cbn [shr].
    rewrite loc_record, loc_record_m. destruct (@round_near q b r l B R L) as [V N].
    set (m1 := round_nearest_even q l) in *.
    destruct (@round_end m1 e ltac:(lia) ltac:(lia)) as (k & m' & K & M & Mr & Eq).
    exists k, m'. split; [lia|]. split; [exact Mr|]. split; [exact Eq|].
    assert (1 <= 2 ^ k) by (assert (0 < 2 ^ k) by (apply Z.pow_pos_nonneg; lia); lia). rewrite <- M. nia.
  - unfold shr_fexp at 1. rewrite (@digits_z q Q0), (@log_range q 53) by (change (2 ^ (53 + 1)) with (2 ^ 54); lia).
    unfold fexp at 1. unfold emin. replace (Z.max (53 + 1 + e - 53) (3 - 1024 - 53) - e) with 1 by lia. cbn [shr iter_pos].
    destruct (@shr_one q b r l Q0 B R L) as [M1 L1].
    set (s := shr_1 (shr_record_of_loc q l)) in *. rewrite M1.
    pose proof (Z.mod_pos_bound q 2 ltac:(lia)) as Mb. pose proof (Z.div_mod q 2 ltac:(lia)) as Dm.
    destruct (@round_near (q / 2) (2 * b) (q mod 2 * b + r) (loc_of_shr_record s) ltac:(lia) ltac:(nia) L1) as [V N].
    set (m1 := round_nearest_even (q / 2) (loc_of_shr_record s)) in *.
    assert (H2 : 2 ^ 52 <= q / 2 < 2 ^ 53).
    { split; [apply Z.div_le_lower_bound; change (2 * 2 ^ 52) with (2 ^ 53); lia|]. apply Z.div_lt_upper_bound; change (2 * 2 ^ 53) with (2 ^ 54); lia. }
    destruct (@round_end m1 (e + 1) ltac:(lia) ltac:(lia)) as (k & m' & K & M & Mr & Eq).
    exists (k + 1), m'. split; [lia|]. split; [exact Mr|]. split; [rewrite Eq; f_equal; ring|].
    assert (1 <= 2 ^ k) by (assert (0 < 2 ^ k) by (apply Z.pow_pos_nonneg; lia); lia).
    rewrite Z.pow_add_r by lia. rewrite Z.mul_assoc, <- M.
    replace (q / 2 * (2 * b) + (q mod 2 * b + r)) with (q * b + r) in N by (clear - Dm; nia).
    change (2 ^ 1) with 2. replace (m1 * 2 * b) with (m1 * (2 * b)) by ring. nia.
Qed.

Lemma canon_range a : 0 < a < 2 ^ 53 -> 2 ^ 52 <= a * 2 ^ (53 - (Z.log2 a + 1)) < 2 ^ 53.
Proof.
  intros A. pose proof (small_log A) as L. pose proof (Z.log2_spec a ltac:(lia)) as [X Y]. rewrite Z.pow_succ_r in Y by lia.
  assert (P : 0 < 2 ^ (53 - (Z.log2 a + 1))) by (apply Z.pow_pos_nonneg; lia).
  assert (T : 2 ^ 52 = 2 ^ Z.log2 a * 2 ^ (53 - (Z.log2 a + 1))) by (rewrite <- Z.pow_add_r by lia; f_equal; lia).
  change (2 ^ 53) with (2 * 2 ^ 52). rewrite T. nia.
Qed.

Lemma double_div a b : 0 <= a < 2 ^ 53 -> 0 < b < 2 ^ 53 -> is_quotient (ddiv (double a) (double b)) a b.
Proof.
  intros A B. destruct (Z.eq_dec a 0) as [->|A0].
  { rewrite (@double_canon b) by lia. split; reflexivity. }
  assert (A' : 0 < a < 2 ^ 53) by lia. clear A A0.
  rewrite (@double_canon a), (@double_canon b) by lia. unfold ddiv, canon. cbn [SFdiv xorb].
  pose proof (canon_m A') as Ma. pose proof (canon_m B) as Mb. pose proof (canon_range A') as Ra. pose proof (canon_range B) as Rb.
  pose proof (small_log A') as La. pose proof (small_log B) as Lb.
  remember (Z.log2 a + 1 - 53) as ea eqn:Ea. remember (Z.log2 b + 1 - 53) as eb eqn:Eb.
  replace (53 - (Z.log2 a + 1)) with (- ea) in * by lia. replace (53 - (Z.log2 b + 1)) with (- eb) in * by lia.
  set (ma := Z.to_pos (a * 2 ^ (- ea))) in *. set (mb := Z.to_pos (b * 2 ^ (- eb))) in *.
  clearbody ma mb. unfold SFdiv_core_binary.
  rewrite <- Ma in Ra. rewrite <- Mb in Rb.
  rewrite !digits_z by lia. rewrite (@log_range (Z.pos ma) 52), (@log_range (Z.pos mb) 52) by (change (2 ^ (52 + 1)) with (2 ^ 53); lia).
  replace (Z.min (fexp 53 1024 (52 + 1 + ea - (52 + 1 + eb))) (ea - eb)) with (ea - eb - 53) by (unfold fexp, emin; lia).
  replace (ea - eb - (ea - eb - 53)) with 53 by ring. cbv iota. rewrite Z.shiftl_mul_pow2 by lia.
  pose proof (Z_div_mod (Z.pos ma * 2 ^ 53) (Z.pos mb) ltac:(lia)) as D.
  destruct (Z.div_eucl (Z.pos ma * 2 ^ 53) (Z.pos mb)) as [q r]. destruct D as [D R].
  change (2 ^ 52) with 4503599627370496 in Ra, Rb. change (2 ^ 53) with 9007199254740992 in Ra, Rb, D.
  destruct (@round_quotient q (Z.pos mb) r (new_location (Z.pos mb) r) (ea - eb - 53)) as (k & m & K & Mr & Eq & N);
    [lia|exact R|apply new_located; lia|change (2 ^ 52) with 4503599627370496; change (2 ^ 54) with 18014398509481984; nia|lia|].
  rewrite Eq. cbn [is_quotient]. split; [reflexivity|]. split; [exact Mr|].
  replace (q * Z.pos mb + r) with (Z.pos ma * 2 ^ 53) in N by (change (2 ^ 53) with 9007199254740992; lia).
  rewrite Ma, Mb in N. set (e := ea - eb - 53 + k).
  assert (X : 2 * Z.abs (Z.pos m * b * 2 ^ (k - eb) - a * 2 ^ (53 - ea)) <= b * 2 ^ (k - eb)).
  { replace (k - eb) with (k + - eb) by ring. replace (53 - ea) with (- ea + 53) by ring.
    rewrite (Z.pow_add_r 2 k), (Z.pow_add_r 2 (- ea) 53) by lia.
    set (x := 2 ^ k) in *. set (y := 2 ^ (- eb)) in *. set (z := 2 ^ (- ea)) in *. set (u := 2 ^ 53) in *. clearbody x y z u. clear - N.
    replace (Z.pos m * b * (x * y) - a * (z * u)) with (Z.pos m * x * (b * y) - a * z * u) by ring.
    replace (b * (x * y)) with (x * (b * y)) by ring. exact N. }
  assert (P1 : 0 < 2 ^ (k - eb)) by (apply Z.pow_pos_nonneg; lia).
  assert (P2 : 0 < 2 ^ (53 - ea)) by (apply Z.pow_pos_nonneg; lia).
  destruct (0 <=? e) eqn:E0.
  - apply Z.leb_le in E0.
    assert (T : 2 ^ (k - eb) = 2 ^ e * 2 ^ (53 - ea)) by (replace (k - eb) with (e + (53 - ea)) by (unfold e; ring); apply Z.pow_add_r; lia).
    rewrite T in X. apply (Z.mul_le_mono_pos_r _ _ (2 ^ (53 - ea)) P2).
    replace (2 ^ e * b * 2 ^ (53 - ea)) with (b * (2 ^ e * 2 ^ (53 - ea))) by ring. etransitivity; [|exact X].
    apply Z.eq_le_incl. replace (Z.pos m * b * (2 ^ e * 2 ^ (53 - ea)) - a * 2 ^ (53 - ea)) with ((Z.pos m * 2 ^ e * b - a) * 2 ^ (53 - ea)) by ring.
    rewrite Z.abs_mul, (Z.abs_eq (2 ^ (53 - ea))) by lia. ring.
  - apply Z.leb_gt in E0.
    assert (T : 2 ^ (53 - ea) = 2 ^ (- e) * 2 ^ (k - eb)) by (replace (53 - ea) with (- e + (k - eb)) by (unfold e; ring); apply Z.pow_add_r; lia).
    rewrite T in X. apply (Z.mul_le_mono_pos_r _ _ (2 ^ (k - eb)) P1). etransitivity; [|exact X].
    apply Z.eq_le_incl. replace (Z.pos m * b * 2 ^ (k - eb) - a * (2 ^ (- e) * 2 ^ (k - eb))) with ((Z.pos m * b - a * 2 ^ (- e)) * 2 ^ (k - eb)) by ring.
    rewrite Z.abs_mul, (Z.abs_eq (2 ^ (k - eb))) by lia. ring.
Qed.
