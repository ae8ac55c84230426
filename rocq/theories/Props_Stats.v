(** C48: the statistics plugin. *)
From Verif Require Import Base Codes Stats StatsSpec StatsProofs.

(** One direction: what the plugin has after packets of lengths [ls]. *)
Definition holds (st : stats) (ls : list Z) : Prop :=
  st_sum st = double (total ls) /\ st_sumsq st = double (squares ls) /\ st_n st = Z.of_nat (length ls) /\
  (ls <> [] -> exists mn mx, least ls mn /\ greatest ls mx /\ st_min st = double mn /\ st_max st = double mx).

Lemma total_app a b : total (a ++ b) = total a + total b.
Proof. induction a as [|x a IH]; cbn [app total]; [reflexivity|]. rewrite IH. ring. Qed.
Lemma squares_app a b : squares (a ++ b) = squares a + squares b.
Proof. unfold squares. rewrite map_app. apply total_app. Qed.
Lemma squares_total ls : (forall x, In x ls -> 0 <= x) -> 0 <= total ls <= squares ls.
Proof.
  unfold squares. induction ls as [|x ls IH]; cbn [total map]; intros H; [lia|].
  pose proof (H x (or_introl eq_refl)). assert (x <= x * x) by nia.
  specialize (IH (fun y Y => H y (or_intror Y))). lia.
Qed.

Lemma sample_holds st ls s : holds st ls -> (forall x, In x (ls ++ [s]) -> 0 <= x) ->
  squares (ls ++ [s]) < 2 ^ 53 -> Z.of_nat (length (ls ++ [s])) < 2 ^ 64 -> holds (stats_sample st (double s)) (ls ++ [s]).
Proof.
  intros (H1 & H2 & H3 & H4) P Q N.
  pose proof (@squares_total _ P) as T. assert (P' : forall x, In x ls -> 0 <= x) by (intros x X; apply P, in_or_app; tauto).
  pose proof (@squares_total _ P') as T'. assert (S0 : 0 <= s) by (apply P, in_or_app; right; left; reflexivity).
  rewrite total_app in T. rewrite squares_app in T, Q. change (squares [s]) with (s * s + 0) in *. change (total [s]) with (s + 0) in *.
  assert (s <= s * s) by nia.
  assert (A : dadd (st_sum st) (double s) = double (total (ls ++ [s]))).
  { rewrite H1, double_add by lia. f_equal. rewrite total_app. cbn [total]. ring. }
  assert (B : dadd (st_sumsq st) (dmul (double s) (double s)) = double (squares (ls ++ [s]))).
  { rewrite H2, double_mul, double_add by lia. f_equal. rewrite squares_app. change (squares [s]) with (s * s + 0). ring. }
  assert (C : (st_n st + 1) mod 2 ^ 64 = Z.of_nat (length (ls ++ [s]))).
  { rewrite H3. rewrite app_length in N |- *. cbn [length] in N |- *. rewrite Nat2Z.inj_add in N |- *. rewrite Z.mod_small by lia. reflexivity. }
  unfold stats_sample. rewrite A, B, C.
  destruct (Z.eqb_spec (st_n st) 0) as [E|E].
  - assert (ls = []) as -> by (destruct ls; [reflexivity|cbn [length] in H3; lia]).
    split; [reflexivity|]. split; [reflexivity|]. split; [reflexivity|]. intros _. exists s, s.
    split; [|split; [|split; reflexivity]]; (split; [left; reflexivity|]); intros x [<-|[]]; lia.
  - assert (ls <> []) as NE by (intros ->; cbn in H3; lia).
    destruct (H4 NE) as (mn & mx & [In1 L1] & [In2 L2] & -> & ->).
    assert (Sq : forall x, In x ls -> 0 <= x < 2 ^ 53).
    { intros x X. pose proof (P' x X). split; [lia|]. apply Z.le_lt_trans with (squares ls); [|lia].
      clear - X P'. unfold squares. induction ls as [|y ls IH]; [destruct X|]. cbn [map total].
      pose proof (P' y (or_introl eq_refl)). assert (y <= y * y) by nia.
      assert (0 <= total (map (fun x => x * x) ls)).
      { pose proof (@squares_total ls (fun z Z => P' z (or_intror Z))) as G. unfold squares in G. lia. }
      destruct X as [->|X]; [lia|]. specialize (IH (fun z Z => P' z (or_intror Z)) X). nia. }
    rewrite (@double_lt s mn), (@double_lt mx s) by (first [apply Sq; assumption|lia]).
    split; [reflexivity|]. split; [reflexivity|]. split; [reflexivity|]. intros _. cbn [st_min st_max].
    exists (if s <? mn then s else mn), (if mx <? s then s else mx).
    split; [|split; [|split]].
    + split.
      * apply in_or_app. destruct (Z.ltb_spec s mn); [right; left; reflexivity|left; exact In1].
      * intros x X. apply in_app_or in X. destruct X as [X|[<-|[]]]; [specialize (L1 x X)|]; destruct (Z.ltb_spec s mn); lia.
    + split.
      * apply in_or_app. destruct (Z.ltb_spec mx s); [right; left; reflexivity|left; exact In2].
      * intros x X. apply in_app_or in X. destruct X as [X|[<-|[]]]; [specialize (L2 x X)|]; destruct (Z.ltb_spec mx s); lia.
    + destruct (s <? mn); reflexivity.
    + destruct (mx <? s); reflexivity.
Qed.

Definition side (dir : bool) (ps : packet_stats) : stats := if dir then ps_in ps else ps_out ps.

Lemma run_app h x data : stats_run (h ++ [x]) data = r_data (stats_call x (stats_run h data)).
Proof. revert data. induction h as [|y h IH]; intros data; cbn [app stats_run]; [reflexivity|apply IH]. Qed.
Lemma run_alive h : exists ps, stats_run h (Some packet_stats0) = Some ps.
Proof.
  induction h as [|x h IH] using rev_ind; [eexists; reflexivity|]. destruct IH as [ps IH]. rewrite run_app, IH.
  destruct x as [[] p]; eexists; reflexivity.
Qed.
Lemma lengths_app dir a b : lengths dir (a ++ b) = lengths dir a ++ lengths dir b.
Proof. unfold lengths. rewrite filter_app, map_app. reflexivity. Qed.
Lemma lengths_pos dir h x : In x (lengths dir h) -> 0 <= x.
Proof. unfold lengths. intros H. apply in_map_iff in H as (y & <- & _). unfold len. lia. Qed.

Lemma run_holds h dir ps : stats_run h (Some packet_stats0) = Some ps ->
  squares (lengths dir h) < 2 ^ 53 -> Z.of_nat (length (lengths dir h)) < 2 ^ 64 -> holds (side dir ps) (lengths dir h).
Proof.
  revert ps. induction h as [|[d p] h IH] using rev_ind; intros ps R Q N.
  - injection R as <-. destruct dir; (split; [reflexivity|]; split; [reflexivity|]; split; [reflexivity|]; intros X; destruct (X eq_refl)).
  - rewrite run_app in R. destruct (run_alive h) as [ps0 R0]. rewrite R0 in R. specialize (IH _ R0).
    rewrite lengths_app in *. unfold lengths at 2 in Q. unfold lengths at 2 in N. unfold lengths at 2. cbn [filter fst snd] in *.
    destruct (Bool.eqb d dir) eqn:E.
    + apply Bool.eqb_prop in E. subst d. cbn [map snd] in *.
      assert (holds (stats_sample (side dir ps0) (double (len p))) (lengths dir h ++ [len p])) as H.
      { apply sample_holds; auto.
        - apply IH; [rewrite squares_app in Q; change (squares [len p]) with (len p * len p + 0) in Q; nia|].
          rewrite app_length in N. cbn [length] in N. lia.
        - intros x X. apply in_app_or in X. destruct X as [X|[<-|[]]]; [apply (@lengths_pos _ _ _ X)|unfold len; lia]. }
      destruct dir; cbn [stats_call fst snd stats_do_ingress stats_do_egress r_data] in R; injection R as <-; exact H.
    + cbn [map] in *. rewrite app_nil_r in *. specialize (IH Q N).
      destruct dir, d; try discriminate; cbn [stats_call fst snd stats_do_ingress stats_do_egress r_data] in R; injection R as <-; exact IH.
Qed.

(** The plugin, once created, lets every packet pass unchanged. *)
Theorem C48_passes : forall h dir p rc data0,
  stats_create true = (rc, data0) ->
  rc = HE_PLUGIN_SUCCESS /\
  let r := stats_call (dir, p) (stats_run h data0) in
  r_code r = HE_PLUGIN_SUCCESS /\ r_packet r = p.
Proof.
  intros h dir p rc data0 E. injection E as <- <-. split; [reflexivity|].
  destruct (run_alive h) as [ps ->]. destruct dir; split; reflexivity.
Qed.
Print Assumptions C48_passes.

(** It prints a line at every 100000th packet of a direction, and only then.  While
    the sum of the squares stays below 2^53, the numbers are those of the packets of that
    direction: count, sum, sum of squares, smallest and largest exactly, the mean
    as near as a double can be. *)
Theorem C48_line_partial : forall h dir p rc data0,
  stats_create true = (rc, data0) ->
  let ls := lengths dir (h ++ [(dir, p)]) in
  let n := Z.of_nat (length ls) in
  squares ls < 2 ^ 53 -> n < 2 ^ 53 ->
  exists l,
    r_lines (stats_call (dir, p) (stats_run h data0)) = (if n mod 100000 =? 0 then [(dir, l)] else []) /\
    l_n l = n /\ is_number (l_sum l) (total ls) /\ is_number (l_sumsq l) (squares ls) /\
    is_quotient (l_mean l) (total ls) n /\
    exists mn mx, least ls mn /\ greatest ls mx /\ is_number (l_min l) mn /\ is_number (l_max l) mx.
Proof.
  intros h dir p rc data0 E ls n Q N. injection E as <- <-.
  destruct (run_alive (h ++ [(dir, p)])) as [ps R].
  assert (H : holds (side dir ps) ls) by (apply run_holds; [exact R|exact Q|fold ls n; change (2 ^ 53) with 9007199254740992 in N; change (2 ^ 64) with 18446744073709551616; lia]).
  rewrite run_app in R. destruct (run_alive h) as [ps0 R0]. rewrite R0 in R |- *.
  assert (Pos : forall x, In x ls -> 0 <= x) by (intros x X; apply (@lengths_pos _ _ _ X)).
  pose proof (@squares_total _ Pos) as T.
  assert (NE : ls <> []).
  { unfold ls. rewrite lengths_app. unfold lengths at 2. cbn [filter fst]. rewrite Bool.eqb_reflx. cbn. destruct (lengths dir h); discriminate. }
  assert (N0 : 0 < n) by (unfold n; destruct ls; [congruence|cbn [length]; lia]).
  exists (stats_dump (side dir ps)). destruct H as (H1 & H2 & H3 & H4). destruct (H4 NE) as (mn & mx & L & G & M1 & M2).
  split.
  { fold n in H3. rewrite <- H3. clear - R. destruct dir; cbn [stats_call fst snd stats_do_ingress stats_do_egress r_data r_lines] in R |- *;
      injection R as <-; reflexivity. }
  unfold stats_dump, stats_mean. cbn [l_n l_sum l_sumsq l_min l_max l_mean]. rewrite H1, H2, H3, M1, M2. fold n.
  split; [reflexivity|]. split; [apply double_is; lia|]. split; [apply double_is; lia|]. split; [apply double_div; lia|].
  exists mn, mx. split; [exact L|]. split; [exact G|].
  assert (B : forall x, In x ls -> 0 <= x < 2 ^ 53).
  { intros x X. pose proof (Pos x X). split; [lia|]. apply Z.le_lt_trans with (total ls); [|lia].
    clear - X Pos. induction ls as [|y ls IH]; [destruct X|]. cbn [total].
    pose proof (Pos y (or_introl eq_refl)).
    assert (0 <= total ls) by (pose proof (@squares_total ls (fun z Z => Pos z (or_intror Z))); lia).
    destruct X as [->|X]; [lia|]. specialize (IH (fun z Z => Pos z (or_intror Z)) X). lia. }
  split; apply double_is, B; [apply L|apply G].
Qed.
Print Assumptions C48_line_partial.

Lemma lengths_repeat dir p k : lengths dir (repeat (dir, p) k) = repeat (len p) k.
Proof.
  unfold lengths. induction k as [|k IH]; cbn [repeat filter map fst]; [reflexivity|].
  rewrite Bool.eqb_reflx. cbn [map snd]. f_equal. exact IH.
Qed.
Lemma total_repeat x k : total (repeat x k) = x * Z.of_nat k.
Proof. induction k as [|k IH]; cbn [repeat total]; [lia|]. rewrite IH. lia. Qed.
Lemma squares_repeat x k : squares (repeat x k) = x * x * Z.of_nat k.
Proof. unfold squares. rewrite <- total_repeat. f_equal. induction k as [|k IH]; cbn [repeat map]; [reflexivity|]. f_equal; exact IH. Qed.
Definition same (k : Z) (size : nat) : list (bool * bytes) := repeat (true, repeat 0 size) (Z.to_nat k).
Lemma run_same k size ps : 0 <= k -> stats_run (same k size) (Some packet_stats0) = Some ps ->
  Z.of_nat size * Z.of_nat size * k < 2 ^ 53 -> k < 2 ^ 53 ->
  st_sum (ps_in ps) = double (Z.of_nat size * k) /\ st_sumsq (ps_in ps) = double (Z.of_nat size * Z.of_nat size * k) /\ st_n (ps_in ps) = k.
Proof.
  intros K R Q N. unfold same in R.
  assert (L : lengths true (repeat (true, repeat 0 size) (Z.to_nat k)) = repeat (Z.of_nat size) (Z.to_nat k)).
  { rewrite lengths_repeat. unfold len. rewrite repeat_length. reflexivity. }
  destruct (@run_holds _ true ps R) as (H1 & H2 & H3 & _); rewrite L in *;
    rewrite ?squares_repeat, ?total_repeat, ?repeat_length, ?Z2Nat.id in * by exact K; auto.
  change (2 ^ 53) with 9007199254740992 in N. change (2 ^ 64) with 18446744073709551616. lia.
Qed.

Lemma same_succ k size : 0 <= k -> same (k + 1) size = same k size ++ [(true, repeat 0 size)].
Proof. intros K. unfold same. rewrite Z2Nat.inj_add, repeat_app by lia. reflexivity. Qed.
Lemma same_all k : Forall (fun x => fst x = true /\ len (snd x) = 1459) (same k 1459).
Proof. unfold same. apply Forall_forall. intros x X. apply repeat_spec in X. subst x. split; reflexivity. Qed.
Lemma lengths_same k : 0 <= k -> squares (lengths true (same k 1459)) = 1459 * 1459 * k.
Proof. intros K. unfold same. rewrite lengths_repeat, squares_repeat, Z2Nat.id by exact K. reflexivity. Qed.

Opaque same.
(** The standard deviation may be printed as "nan": for packets of one size, where it
    is 0. *)
Theorem C48_stddev_refuted : exists h p l,
  Forall (fun x => fst x = true /\ len (snd x) = 1459) (h ++ [(true, p)]) /\
  r_lines (stats_call (true, p) (stats_run h (snd (stats_create true)))) = [(true, l)] /\
  l_stddev l = S754_nan.
Proof.
  set (p := repeat 0 1459). set (k := 5899999).
  destruct (run_alive (same k 1459)) as [ps R].
  assert (R' : stats_run (same 5900000 1459) (Some packet_stats0) = r_data (stats_call (true, p) (Some ps))).
  { rewrite <- R, <- run_app. unfold p. rewrite <- same_succ by (unfold k; lia). reflexivity. }
  exists (same k 1459), p.
  destruct (r_data (stats_call (true, p) (Some ps))) as [ps'|] eqn:D; [|destruct (run_alive (same 5900000 1459)) as [? Y]; congruence].
  exists (stats_dump (ps_in ps')).
  destruct (@run_same 5900000 1459 ps' ltac:(lia) R' ltac:(vm_compute; reflexivity) ltac:(lia)) as (A & B & C).
  change (snd (stats_create true)) with (Some packet_stats0). rewrite R.
  assert (D' : ps_in ps' = stats_sample (ps_in ps) (double (len p))).
  { change (Some (PStats (stats_sample (ps_in ps) (double (len p))) (ps_out ps)) = Some ps') in D.
    apply (f_equal (fun o => match o with Some x => ps_in x | None => ps_in ps end)) in D. symmetry. exact D. }
  split.
  { apply Forall_app. split; [apply same_all|constructor; [split; reflexivity|constructor]]. }
  split.
  { change (r_lines (stats_call (true, p) (Some ps))) with
      (let st := stats_sample (ps_in ps) (double (len p)) in if st_n st mod PACKET_SAMPLE_N =? 0 then [(true, stats_dump st)] else []).
    cbv zeta. rewrite <- D', C. reflexivity. }
  unfold stats_dump, stats_stddev. cbn [l_stddev]. rewrite A, B, C. vm_compute. reflexivity.
Qed.
Print Assumptions C48_stddev_refuted.

(** Beyond 2^53 the sum of the squares is not exact any more, for packets of 1459 bytes
    too. *)
Theorem C48_exact_refuted : exists h ps,
  Forall (fun x => fst x = true /\ len (snd x) = 1459) h /\
  stats_run h (snd (stats_create true)) = Some ps /\
  ~ is_number (st_sumsq (ps_in ps)) (squares (lengths true h)).
Proof.
  set (k := (2 ^ 53) / (1459 * 1459)).
  destruct (run_alive (same k 1459)) as [ps R].
  destruct (@run_same k 1459 ps ltac:(vm_compute; discriminate) R ltac:(vm_compute; reflexivity) ltac:(vm_compute; reflexivity)) as (A & B & C).
  set (p := repeat 0 1459).
  destruct (run_alive (same k 1459 ++ [(true, p)])) as [ps' R'].
  exists (same k 1459 ++ [(true, p)]), ps'.
  split.
  { apply Forall_app. split; [apply same_all|constructor; [split; reflexivity|constructor]]. }
  split; [exact R'|].
  assert (D : ps_in ps' = stats_sample (ps_in ps) (double (len p))).
  { rewrite run_app, R in R'. change (Some (PStats (stats_sample (ps_in ps) (double (len p))) (ps_out ps)) = Some ps') in R'.
    apply (f_equal (fun o => match o with Some x => ps_in x | None => ps_in ps end)) in R'. symmetry. exact R'. }
  rewrite D.
  rewrite lengths_app, squares_app, lengths_same by (vm_compute; discriminate).
  unfold stats_sample. rewrite A, B, C. 
  change (len p) with 1459. change (squares (lengths true [(true, p)])) with (1459 * 1459).
  change (Z.of_nat 1459) with 1459.
  vm_compute. intros [_ F]; discriminate F.
Qed.
Print Assumptions C48_exact_refuted.

(** Non-vacuity: a hundred thousand packets in and some out; one line, with the right
    numbers; mean 60.0003. *)
Definition traffic : list (bool * bytes) :=
  repeat (true, repeat 7 60) (Z.to_nat 99998) ++ [(false, repeat 7 1000); (true, repeat 7 100)].
Example C48_example :
  let ls := lengths true (traffic ++ [(true, repeat 7 50)]) in
  squares ls < 2 ^ 53 /\ Z.of_nat (length ls) = 100000 /\ total ls = 6000030 /\ least ls 50 /\ greatest ls 100 /\
  map fst (r_lines (stats_call (true, repeat 7 50) (stats_run traffic (Some packet_stats0)))) = [true] /\
  r_lines (stats_call (false, repeat 7 50) (stats_run traffic (Some packet_stats0))) = [].
Proof.
  assert (L : lengths true (traffic ++ [(true, repeat 7 50)]) = repeat 60 (Z.to_nat 99998) ++ [100; 50]).
  { unfold traffic. rewrite !lengths_app, lengths_repeat. rewrite <- app_assoc. reflexivity. }
  cbv zeta. rewrite L. clear L.
  split; [rewrite squares_app, squares_repeat; vm_compute; reflexivity|].
  split; [rewrite app_length, repeat_length; vm_compute; reflexivity|].
  split; [rewrite total_app, total_repeat; vm_compute; reflexivity|].
  split. { split; [apply in_or_app; right; right; left; reflexivity|]. intros x X. apply in_app_or in X. destruct X as [X|[<-|[<-|[]]]]; try lia. apply repeat_spec in X. lia. }
  split. { split; [apply in_or_app; right; left; reflexivity|]. intros x X. apply in_app_or in X. destruct X as [X|[<-|[<-|[]]]]; try lia. apply repeat_spec in X. lia. }
  split; vm_compute; reflexivity.
Qed.
