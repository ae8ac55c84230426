(** C48, continued: the standard deviation. *)
From Verif Require Import Base Codes Stats StatsSpec StatsProofs Props_Stats.

Lemma double_sub a b : 0 <= b <= a -> a < 2 ^ 53 -> dsub (double a) (double b) = double (a - b).
Proof.
  intros B H. unfold dsub.
  destruct (Z.eq_dec b 0) as [->|B0].
  { rewrite Z.sub_0_r. destruct (Z.eq_dec a 0) as [->|A0]; [reflexivity|]. rewrite (@double_canon a) by lia. reflexivity. }
  rewrite (@double_canon a), (@double_canon b) by lia.
  pose proof (@small_log a ltac:(lia)) as La. pose proof (@small_log b ltac:(lia)) as Lb.
  unfold canon at 1 2. cbn [SFsub cond_Zopp].
  set (ez := Z.min (Z.log2 a + 1 - 53) (Z.log2 b + 1 - 53)).
  rewrite !shl_align_scaled by lia. rewrite !canon_m by lia.
  rewrite <- !Z.mul_assoc, <- !Z.pow_add_r by lia.
  replace (53 - (Z.log2 a + 1) + (Z.log2 a + 1 - 53 - ez)) with (- ez) by ring.
  replace (53 - (Z.log2 b + 1) + (Z.log2 b + 1 - 53 - ez)) with (- ez) by ring.
  rewrite <- Z.mul_sub_distr_r. destruct (Z.eq_dec a b) as [->|N]; [rewrite Z.sub_diag; reflexivity|].
  rewrite (@double_canon (a - b)) by lia. rewrite <- (@normal_exact (a - b) (- ez)) by lia. rewrite Z.opp_involutive. reflexivity.
Qed.

Lemma double_div_exact c b : 0 <= c -> 0 < b < 2 ^ 53 -> c * b < 2 ^ 53 -> ddiv (double (c * b)) (double b) = double c.
Proof.
  intros C B H. destruct (Z.eq_dec c 0) as [->|C0].
  { rewrite (@double_canon b) by lia. reflexivity. }
  set (a := c * b) in *. assert (A' : 0 < a < 2 ^ 53) by (unfold a in *; nia). assert (C' : 0 < c < 2 ^ 53) by (unfold a in *; nia).
  rewrite (@double_canon a), (@double_canon b), (@double_canon c) by lia. unfold ddiv. unfold canon at 1 2. cbn [SFdiv xorb].
  pose proof (canon_m A') as Ma. pose proof (canon_m B) as Mb. pose proof (canon_range A') as Ra. pose proof (canon_range B) as Rb.
  pose proof (small_log A') as La. pose proof (small_log B) as Lb.
  pose proof (@Z.log2_mul_above c b ltac:(lia) ltac:(lia)) as Lc. fold a in Lc.
  remember (Z.log2 a + 1 - 53) as ea eqn:Ea. remember (Z.log2 b + 1 - 53) as eb eqn:Eb.
  replace (53 - (Z.log2 a + 1)) with (- ea) in * by lia. replace (53 - (Z.log2 b + 1)) with (- eb) in * by lia.
  set (ma := Z.to_pos (a * 2 ^ (- ea))) in *. set (mb := Z.to_pos (b * 2 ^ (- eb))) in *.
  clearbody ma mb. unfold SFdiv_core_binary.
  rewrite <- Ma in Ra. rewrite <- Mb in Rb.
  rewrite !digits_z by lia. rewrite (@log_range (Z.pos ma) 52), (@log_range (Z.pos mb) 52) by (change (2 ^ (52 + 1)) with (2 ^ 53); lia).
  replace (Z.min (fexp 53 1024 (52 + 1 + ea - (52 + 1 + eb))) (ea - eb)) with (ea - eb - 53) by (unfold fexp, emin; lia).
  replace (ea - eb - (ea - eb - 53)) with 53 by ring. cbv iota. rewrite Z.shiftl_mul_pow2 by lia.
  pose proof (Z_div_mod (Z.pos ma * 2 ^ 53) (Z.pos mb) ltac:(lia)) as D.
  destruct (Z.div_eucl (Z.pos ma * 2 ^ 53) (Z.pos mb)) as [q r]. destruct D as [D R].
  set (k := 53 - ea + eb).
  assert (Q : Z.pos ma * 2 ^ 53 = Z.pos mb * (c * 2 ^ k) + 0).
  { rewrite Ma, Mb. unfold a. rewrite Z.add_0_r. replace (c * b * 2 ^ (- ea) * 2 ^ 53) with (c * b * (2 ^ (- ea) * 2 ^ 53)) by ring.
    replace (b * 2 ^ (- eb) * (c * 2 ^ k)) with (c * b * (2 ^ (- eb) * 2 ^ k)) by ring. rewrite <- !Z.pow_add_r by (unfold k; lia). do 2 f_equal. unfold k. ring. }
  rewrite Q in D. apply Z.div_mod_unique in D as [<- <-]; [|lia|lia]. replace (new_location (Z.pos mb) 0) with loc_Exact.
  2:{ unfold new_location, new_location_even, new_location_odd. destruct (Z.even _); reflexivity. }
  replace (ea - eb - 53) with (- k) by (unfold k; ring). apply round_exact; [exact C'|]. unfold k. lia.
Qed.

Lemma double_sqrt v : 0 <= v < 2 ^ 53 -> is_root (dsqrt (double v)) v.
Proof.
  intros V. destruct (Z.eq_dec v 0) as [->|V0]; [split; reflexivity|]. assert (A : 0 < v < 2 ^ 53) by lia. clear V V0.
  rewrite (@double_canon v) by lia. unfold dsqrt, canon. cbn [SFsqrt].
  pose proof (canon_m A) as M. pose proof (canon_range A) as Ra. pose proof (small_log A) as L.
  set (d := Z.log2 v + 1) in *. set (m := Z.to_pos (v * 2 ^ (53 - d))) in *. clearbody m. rewrite <- M in Ra. unfold SFsqrt_core_binary.
  rewrite digits_z by lia. rewrite (@log_range (Z.pos m) 52) by (change (2 ^ (52 + 1)) with (2 ^ 53); lia).
  replace (52 + 1 + (d - 53) + 1) with (d + 1) by ring. rewrite !Z.div2_div.
  set (h := (d + 1) / 2). assert (Hh : 2 * h <= d + 1 <= 2 * h + 1) by (unfold h; pose proof (Z.div_mod (d + 1) 2 ltac:(lia)); pose proof (Z.mod_pos_bound (d + 1) 2 ltac:(lia)); lia).
  assert (Hg : (d - 53) / 2 >= h - 53) by (apply Z.le_ge, Z.div_le_lower_bound; lia).
  replace (Z.min (fexp 53 1024 h) ((d - 53) / 2)) with (h - 53) by (unfold fexp, emin; lia).
  set (s := d - 53 - 2 * (h - 53)). assert (Hs : s = 52 \/ s = 53) by (unfold s; lia).
  assert (Sm : match s with Z0 => Z.pos m | Zpos _ => Z.shiftl (Z.pos m) s | Zneg _ => 0 end = Z.pos m * 2 ^ s).
  { rewrite <- Z.shiftl_mul_pow2 by lia. destruct Hs as [-> | ->]; reflexivity. }
  rewrite Sm. clear Sm. set (n := Z.pos m * 2 ^ s).
  assert (Hn : n = v * 2 ^ (106 - 2 * h)). { unfold n. rewrite M. rewrite <- Z.mul_assoc, <- Z.pow_add_r by (unfold d in *; lia). do 2 f_equal. unfold s. ring. }
  assert (Rn : 2 ^ 104 <= n < 2 ^ 106).
  { unfold n. destruct Hs as [-> | ->]; [change (2 ^ 104) with (2 ^ 52 * 2 ^ 52)|change (2 ^ 104) with (2 ^ 51 * 2 ^ 53)]; [change (2 ^ 106) with (2 ^ 54 * 2 ^ 52)|change (2 ^ 106) with (2 ^ 53 * 2 ^ 53)];
    change (2 ^ 51) with 2251799813685248; change (2 ^ 52) with 4503599627370496 in *; change (2 ^ 53) with 9007199254740992 in *; change (2 ^ 54) with 18014398509481984; nia. }
  pose proof (Z.sqrtrem_spec n ltac:(lia)) as Sp. destruct (Z.sqrtrem n) as [q r]. destruct Sp as [Sq Sr].
  assert (Rq : 2 ^ 52 <= q < 2 ^ 53).
  { change (2 ^ 104) with (2 ^ 52 * 2 ^ 52) in Rn. change (2 ^ 106) with (2 ^ 53 * 2 ^ 53) in Rn. change (2 ^ 52) with 4503599627370496 in *. change (2 ^ 53) with 9007199254740992 in *. nia. }
  set (l := if Zeq_bool r 0 then loc_Exact else loc_Inexact (if Zle_bool r q then Lt else Gt)).
  assert (exists x, 0 <= x < 3 /\ located 3 x l /\ (x = 0 /\ r = 0 \/ x = 1 /\ 0 < r <= q \/ x = 2 /\ q < r)) as (x & X & Lx & Cx).
  { unfold l. destruct (Zeq_bool r 0) eqn:E; [apply Zeq_bool_eq in E; exists 0; cbn; lia|]. apply Zeq_bool_neq in E. destruct (Zle_bool r q) eqn:F; [apply Zle_bool_imp_le in F; exists 1|apply Z.leb_gt in F; exists 2]; cbn; lia. }
  unfold binary_round_aux. unfold shr_fexp at 1. rewrite (@digits_z q), (@log_range q 52) by (change (2 ^ (52 + 1)) with (2 ^ 53); lia).
  unfold fexp at 1. unfold emin. replace (Z.max (52 + 1 + (h - 53) - 53) (3 - 1024 - 53) - (h - 53)) with 0 by lia. cbn [shr].
  rewrite loc_record, loc_record_m. destruct (@round_near q 3 x l ltac:(lia) X Lx) as [Vr N]. set (m1 := round_nearest_even q l) in *.
  destruct (@round_end m1 (h - 53) ltac:(lia) ltac:(lia)) as (k & m' & K & Mk & Mr & Eq). rewrite Eq. cbn [is_root].
  split; [reflexivity|]. split; [exact Mr|]. split; [lia|].
  assert (B1 : (2 * m1 - 1) * (2 * m1 - 1) <= 4 * n <= (2 * m1 + 1) * (2 * m1 + 1)).
  { assert (m1 = q /\ r <= q \/ m1 = q + 1 /\ q < r) as [[-> F]|[-> F]] by (destruct Vr as [Vr|Vr]; rewrite Vr in *; lia); nia. }
  rewrite Hn in B1. assert (k = 0 \/ k = 1) as [-> | ->] by lia.
  - rewrite Z.pow_0_r, Z.mul_1_r in Mk. rewrite <- Mk. replace (2 - 2 * (h - 53 + 0)) with (2 + (106 - 2 * h)) by ring. rewrite (Z.pow_add_r 2 2) by (unfold d in *; lia). change (2 ^ 2) with 4.
    replace (v * (4 * 2 ^ (106 - 2 * h))) with (4 * (v * 2 ^ (106 - 2 * h))) by ring. exact B1.
  - rewrite Mk in B1. replace (2 - 2 * (h - 53 + 1)) with (106 - 2 * h) by ring. change (2 ^ 1) with 2 in B1. change (2 ^ 52) with 4503599627370496 in Mr. nia.
Qed.

(** Where no division has a remainder and the square of the sum is below 2^53, the
    standard deviation printed is as near as a double can be to
    sqrt ((sum of squares - sum^2 / n) / (n - 1)).  In particular it is 0 for packets of
    one size. *)
Theorem C48_stddev_partial : forall h dir p rc data0 q v l,
  stats_create true = (rc, data0) ->
  let ls := lengths dir (h ++ [(dir, p)]) in
  let n := Z.of_nat (length ls) in
  squares ls < 2 ^ 53 -> n < 2 ^ 53 -> total ls * total ls < 2 ^ 53 ->
  total ls * total ls = q * n -> squares ls - q = v * (n - 1) -> 0 <= v ->
  In (dir, l) (r_lines (stats_call (dir, p) (stats_run h data0))) -> is_root (l_stddev l) v.
Proof.
  intros h dir p rc data0 q v l E ls n Q N T2 Hq Hv V I. injection E as <- <-.
  destruct (run_alive (h ++ [(dir, p)])) as [ps R].
  assert (H : holds (side dir ps) ls) by (apply run_holds; [exact R|exact Q|fold ls n; change (2 ^ 53) with 9007199254740992 in N; change (2 ^ 64) with 18446744073709551616; lia]).
  rewrite run_app in R. destruct (run_alive h) as [ps0 R0]. rewrite R0 in R, I.
  assert (Pos : forall x, In x ls -> 0 <= x) by (intros x X; apply (@lengths_pos _ _ _ X)).
  pose proof (@squares_total _ Pos) as T.
  assert (n mod 100000 = 0 /\ l = stats_dump (side dir ps)) as [Nm ->].
  { destruct H as (_ & _ & H3 & _). fold n in H3. rewrite <- H3. clear - R I. destruct dir; cbn [stats_call fst snd stats_do_ingress stats_do_egress r_data r_lines] in R, I;
      injection R as <-; cbn [side ps_in ps_out]; (destruct (_ =? 0) eqn:Z0 in I; [|destruct I]; destruct I as [I|[]]; apply pair_equal_spec in I as [_ <-]; split; [apply Z.eqb_eq in Z0; exact Z0|reflexivity]). }
  destruct H as (H1 & H2 & H3 & _). cbn [stats_dump l_stddev]. unfold stats_stddev. rewrite H1, H2, H3. fold n.
  assert (ls <> []) as NE.
  { unfold ls. rewrite lengths_app. unfold lengths at 2. cbn [filter fst]. rewrite Bool.eqb_reflx. cbn. destruct (lengths dir h); discriminate. }
  assert (N0 : 0 < n) by (unfold n; destruct ls; [congruence|cbn [length]; lia]).
  assert (N1 : 100000 <= n) by (apply Z.mod_divide in Nm as [z Hz]; lia).
  change (2 ^ 53) with 9007199254740992 in *. change (2 ^ 64) with 18446744073709551616.
  rewrite (Z.mod_small (n - 1)) by lia.
  rewrite double_mul by (try lia; change (2 ^ 53) with 9007199254740992; lia). rewrite Hq. assert (0 <= q) by nia.
  rewrite double_div_exact by (change (2 ^ 53) with 9007199254740992; lia).
  rewrite double_sub by (change (2 ^ 53) with 9007199254740992; nia). rewrite Hv.
  rewrite double_div_exact by (change (2 ^ 53) with 9007199254740992; nia).
  apply double_sqrt. change (2 ^ 53) with 9007199254740992. nia.
Qed.
Print Assumptions C48_stddev_partial.

(** The hypotheses are met: a packet of 1000 bytes and 99999 empty ones.  The variance
    is 10, and the line has the double next to its root. *)
Definition spread : list (bool * bytes) := (true, repeat 0 1000) :: repeat (true, []) (Z.to_nat 99998).
Lemma lengths_cons dir x h : lengths dir (x :: h) = (if Bool.eqb (fst x) dir then [len (snd x)] else []) ++ lengths dir h.
Proof. unfold lengths. cbn [filter]. destruct (Bool.eqb _ _); reflexivity. Qed.
Example C48_stddev_holds : exists l,
  In (true, l) (r_lines (stats_call (true, []) (stats_run spread (snd (stats_create true))))) /\ is_root (l_stddev l) 10.
Proof.
  set (ls := lengths true (spread ++ [(true, [])])).
  assert (ls = 1000 :: repeat 0 (Z.to_nat 99999)) as Q.
  { unfold ls, spread. cbn [app]. rewrite lengths_cons. cbn [fst snd Bool.eqb app]. apply (f_equal (cons 1000)). rewrite lengths_app, lengths_repeat. change (len []) with 0. change (lengths true [(true, [])]) with (repeat 0 1).
    rewrite <- repeat_app. f_equal. }
  assert (total ls = 1000) as T by (rewrite Q; cbn [total]; rewrite total_repeat; lia).
  assert (squares ls = 1000000) as S2 by (rewrite Q; change (1000 :: repeat 0 (Z.to_nat 99999)) with ([1000] ++ repeat 0 (Z.to_nat 99999)); rewrite squares_app, squares_repeat; reflexivity).
  assert (Z.of_nat (length ls) = 100000) as N by (rewrite Q; cbn [length]; rewrite repeat_length, Nat2Z.inj_succ, Z2Nat.id; lia).
  pose proof (@C48_line_partial spread true [] HE_PLUGIN_SUCCESS (Some packet_stats0) eq_refl) as Lp. cbv zeta in Lp. change (lengths true (spread ++ [(true, [])])) with ls in Lp. rewrite S2, N in Lp.
  destruct (Lp eq_refl eq_refl) as (l & R & _). clear Lp.
  exists l. change (100000 mod 100000 =? 0) with true in R. cbv iota in R.
  assert (In (true, l) (r_lines (stats_call (true, []) (stats_run spread (snd (stats_create true)))))) as I by exact (eq_ind_r (fun x => In (true, l) x) (in_eq (true, l) []) R).
  pose proof (@C48_stddev_partial spread true [] HE_PLUGIN_SUCCESS (Some packet_stats0) 10 10 l eq_refl) as Sp. cbv zeta in Sp.
  change (lengths true (spread ++ [(true, [])])) with ls in Sp. rewrite S2, T, N in Sp. clearbody ls. split; [exact I|].
  exact (Sp eq_refl eq_refl eq_refl eq_refl eq_refl ltac:(lia) I).
Qed.
