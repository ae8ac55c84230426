(** Reassembly of the pieces of one packet, in any arrival order. *)
From Verif Require Import Base Codes Frag FragSpec FragProofs.
Unset Strict Implicit.

(** Consecutive nodes of a list never touch. *)
Fixpoint nadj (l : list node) : Prop :=
  match l with
  | a :: ((b :: _) as t) => n_end a <> n_begin b /\ nadj t
  | _ => True
  end.

Lemma nadj_app l1 a l2 : nadj (l1 ++ a :: l2) <-> nadj (l1 ++ [a]) /\ nadj (a :: l2).
Proof.
  induction l1 as [|x l1 IH]; [cbn; tauto|].
  destruct l1 as [|y l1]; [cbn; tauto|].
  change ((x :: y :: l1) ++ a :: l2) with (x :: (y :: l1) ++ a :: l2).
  change ((x :: y :: l1) ++ [a]) with (x :: (y :: l1) ++ [a]).
  change (nadj (x :: (y :: l1) ++ a :: l2)) with
    (n_end x <> n_begin y /\ nadj ((y :: l1) ++ a :: l2)).
  change (nadj (x :: (y :: l1) ++ [a])) with
    (n_end x <> n_begin y /\ nadj ((y :: l1) ++ [a])).
  tauto.
Qed.

Lemma nadj_snoc l a b : nadj (l ++ [a; b]) <-> nadj (l ++ [a]) /\ n_end a <> n_begin b.
Proof. rewrite nadj_app. cbn. tauto. Qed.

Lemma nadj_cons_inv a l : nadj (a :: l) -> nadj l.
Proof. destruct l; cbn; tauto. Qed.

Section Walk.
Variables (off n mf : Z).
Hypothesis (Ho : 0 <= off) (Hn : 0 < n) (Hon : off + n <= 1500).

Variable Q : node -> Prop.
Hypothesis QL : forall c, Q c -> n_begin c < n_end c.
Hypothesis QE : forall c, Q c -> off = n_end c -> Q (Node (n_begin c) (off + n) (mf =? 0)).
Hypothesis QP : forall c, Q c -> off + n = n_begin c -> Q (Node off (n_end c) (n_last c)).
Hypothesis QN : Q (nd_of off n mf).

(** last node walked, and what is known of it *)
Definition linked (kept skip rest : list node) : Prop :=
  match skip with
  | s :: _ => n_end s = off + n
  | [] => match kept, rest with
          | k :: _, c :: _ => n_end k <> n_begin c
          | _, _ => True
          end
  end /\
  match kept with k :: _ => n_end k < off | [] => True end.

Lemma walk_strong : forall rest kept skip l ok,
  Forall Q kept -> Forall Q skip -> Forall Q rest ->
  nadj (rev kept ++ rev skip) -> nadj rest -> linked kept skip rest ->
  walk true off n mf kept skip rest = Val (l, ok) -> Forall Q l /\ nadj l.
Proof.
  induction rest as [|c tl IH]; intros kept skip l ok FK FS FR NK NR [LK1 LK2] E; cbn [walk] in E.
  { injection E as <- <-. split; [apply Forall_app; split; apply Forall_rev; auto|auto]. }
  inversion FR as [|c' tl' Qc Ft]; subst.
  pose proof (QL Qc) as Lc.
  (* the node before c does not touch b when b is the begin of c or off *)
  assert (forall b, (b = n_begin c /\ off + n <> b) \/ b = off ->
          forall e la, nadj (rev kept ++ rev skip ++ [Node b e la])) as BEF.
  { intros b Hb e la. rewrite app_assoc. destruct skip as [|s skip].
    - rewrite app_nil_r in *. destruct kept as [|k kept]; [exact I|].
      cbn [rev] in *. rewrite <- app_assoc. cbn [app]. apply nadj_snoc. split; [exact NK|].
      cbn [n_begin]. destruct Hb as [[-> _]| ->]; [auto|lia].
    - cbn [rev] in *. rewrite <- app_assoc. cbn [app].
      rewrite app_assoc in NK. rewrite <- app_assoc. cbn [app].
      rewrite app_assoc. apply nadj_snoc. split; [exact NK|].
      cbn [n_begin]. destruct Hb as [[-> ?]| ->]; lia. }
  rewrite u16_small in E by lia.
  destruct (off =? n_end c) eqn:E1.
  { eapply IH; [| | | | | |exact E]; auto.
    - constructor; auto. apply QE; auto; lia.
    - cbn [rev]. apply BEF. left; split; [auto|lia].
    - eapply nadj_cons_inv; eauto.
    - split; [reflexivity|auto]. }
  destruct (off + n =? n_begin c) eqn:E2.
  { rewrite u16_small in E by lia. injection E as <- <-. split.
    - rewrite !Forall_app; repeat split; try (apply Forall_rev; auto).
      constructor; auto. apply QP; auto; lia.
    - rewrite app_assoc. apply nadj_app. rewrite <- app_assoc. split; [apply BEF; auto|].
      destruct tl; cbn in *; auto. }
  assert (nadj (rev kept ++ rev skip ++ [c])) as BC.
  { destruct c as [b e la]. apply BEF. cbn [n_begin] in *. left; split; auto; lia. }
  destruct (n_end c <? off) eqn:E3.
  { destruct tl as [|x tl'].
    - unfold new_node in E. rewrite !u16_small in E by lia. cbn [rbind] in E. injection E as <- <-.
      split.
      + rewrite !Forall_app; repeat split; try (apply Forall_rev; auto).
        repeat constructor; auto.
      + rewrite app_assoc. apply nadj_snoc. rewrite <- app_assoc. split; [exact BC|].
        cbn [n_begin]; lia.
    - assert (n_end c <> n_begin x) as Nx by (destruct NR; auto).
      destruct (n_begin x =? n_end c) eqn:E4; [lia|].
      eapply IH; [| | | | | |exact E]; auto.
      + constructor; auto. apply Forall_app; auto.
      + cbn [rev]. rewrite rev_app_distr, app_nil_r, <- app_assoc. exact BC.
      + eapply nadj_cons_inv; eauto.
      + split; [exact Nx|]. lia. }
  destruct (off + n <? n_begin c) eqn:E5.
  { unfold new_node in E. rewrite !u16_small in E by lia. cbn [rbind] in E. injection E as <- <-.
    split.
    - rewrite !Forall_app; repeat split; try (apply Forall_rev; auto).
      repeat constructor; auto.
    - apply nadj_app. split; [|split; [cbn [n_end]; lia|auto]].
      destruct kept as [|k kept]; [exact I|]. cbn [rev] in *. rewrite <- app_assoc. cbn [app].
      apply nadj_snoc. split; [|cbn [n_begin]; lia].
      clear -NK. rewrite <- app_assoc in NK. cbn [app] in NK.
      apply nadj_app in NK. tauto. }
  injection E as <- <-. split.
  - rewrite !Forall_app; repeat split; try (apply Forall_rev; auto). auto.
  - rewrite app_assoc. apply nadj_app. rewrite <- app_assoc. auto.
Qed.

(** The head of the list after a walk that already passed a node. *)
Lemma walk_hd_pre m : forall rest, (length rest <= m)%nat -> forall kept skip x pre l ok,
  rev kept ++ rev skip = x :: pre ->
  walk true off n mf kept skip rest = Val (l, ok) ->
  exists l', l = x :: l' \/
   (kept = [] /\ l = nd_of off n mf :: l' /\ exists y, In y rest /\ off + n < n_begin y).
Proof.
  induction m as [|m IH]; intros [|c tl] Hm kept skip x pre l ok P E; cbn [length] in Hm; try lia;
    cbn [walk] in E.
  1,2: injection E as <- <-; rewrite P; exists pre; now left.
  rewrite u16_small in E by lia.
  destruct (off =? n_end c).
  { eapply (IH tl) in E; [|lia|cbn [rev]; rewrite app_assoc, P; reflexivity].
    destruct E as (l' & [->|(-> & -> & y & I & Y)]); exists l'; [now left|right].
    repeat split; auto. exists y; split; auto. now right. }
  destruct (off + n =? n_begin c).
  { injection E as <- <-. rewrite app_assoc, P. eexists; left; reflexivity. }
  destruct (n_end c <? off).
  { destruct tl as [|y tl'].
    - cbn in E. injection E as <- <-. rewrite app_assoc, P. eexists; left; reflexivity.
    - destruct (n_begin y =? n_end c).
      + eapply (IH tl') in E;
          [|cbn [length] in *; lia
           |cbn [rev]; rewrite rev_app_distr, app_nil_r, P; reflexivity].
        destruct E as (l' & [->|(D & _)]); [exists l'; now left|discriminate].
      + eapply (IH (y :: tl')) in E;
          [|cbn [length] in *; lia
           |cbn [rev]; rewrite rev_app_distr, app_nil_r, P; reflexivity].
        destruct E as (l' & [->|(D & _)]); [exists l'; now left|discriminate]. }
  destruct (off + n <? n_begin c) eqn:E5.
  { unfold new_node in E. rewrite !u16_small in E by lia. cbn [rbind] in E. injection E as <- <-.
    destruct kept as [|k kept].
    - exists (c :: tl). right. repeat split. exists c; split; [now left|lia].
    - assert (exists r, rev (k :: kept) = x :: r) as [r ->].
      { cbn [rev] in *. destruct (rev kept ++ [k]) as [|z r] eqn:Ez.
        - apply app_eq_nil in Ez as [_ Ez]; discriminate.
        - cbn in P. injection P as -> _. eauto. }
      eexists; left; reflexivity. }
  injection E as <- <-. rewrite app_assoc, P. eexists; left; reflexivity.
Qed.

(** The head after a walk from the start. *)
Lemma walk_hd h t l ok :
  walk true off n mf [] [] (h :: t) = Val (l, ok) ->
  exists h' l', l = h' :: l' /\
   (h' = h \/ (off = n_end h /\ h' = Node (n_begin h) (off + n) (mf =? 0)) \/
    (off + n = n_begin h /\ h' = Node off (n_end h) (n_last h)) \/
    (exists x, In x (h :: t) /\ n_begin x = n_end h /\ h' = Node (n_begin h) (n_end h) (n_last x)) \/
    (h' = nd_of off n mf /\ exists y, In y (h :: t) /\ off + n < n_begin y)).
Proof.
  intros E. cbn [walk] in E. rewrite u16_small in E by lia.
  destruct (off =? n_end h) eqn:E1.
  { eapply (@walk_hd_pre _ t (le_n _)) in E; [|reflexivity].
    destruct E as (l' & [->|(_ & -> & y & I & Y)]); eexists _, l'; split; try reflexivity.
    - right; left. split; [lia|reflexivity].
    - do 4 right. split; [reflexivity|]. exists y; split; [now right|auto]. }
  destruct (off + n =? n_begin h) eqn:E2.
  { rewrite u16_small in E by lia. injection E as <- <-.
    eexists _, _; split; [reflexivity|]. do 2 right; left. split; [lia|reflexivity]. }
  destruct (n_end h <? off) eqn:E3.
  { destruct t as [|y t'].
    - cbn in E. injection E as <- <-. eexists _, _; split; [reflexivity|]. now left.
    - destruct (n_begin y =? n_end h) eqn:E4.
      + eapply (@walk_hd_pre _ t' (le_n _)) in E; [|reflexivity].
        destruct E as (l' & [->|(D & _)]); [|discriminate].
        eexists _, l'; split; [reflexivity|]. do 3 right; left. exists y.
        split; [right; now left|]. split; [lia|]. f_equal; lia.
      + eapply (@walk_hd_pre _ (y :: t') (le_n _)) in E; [|reflexivity].
        destruct E as (l' & [->|(D & _)]); [|discriminate].
        eexists _, l'; split; [reflexivity|]. now left. }
  destruct (off + n <? n_begin h) eqn:E5.
  { unfold new_node in E. rewrite !u16_small in E by lia. cbn [rbind] in E. injection E as <- <-.
    eexists _, _; split; [reflexivity|]. do 4 right. split; [reflexivity|].
    exists h; split; [now left|lia]. }
  injection E as <- <-. eexists _, _; split; [reflexivity|]. now left.
Qed.

(** No overlap with any node: the walk does not fail. *)
Lemma walk_ok m : forall rest, (length rest <= m)%nat -> forall kept skip l ok,
  Forall (fun c => n_end c <= off \/ off + n <= n_begin c) rest ->
  walk true off n mf kept skip rest = Val (l, ok) -> ok = true.
Proof.
  induction m as [|m IH]; intros [|c tl] Hm kept skip l ok F E; cbn [length] in Hm; try lia;
    cbn [walk] in E.
  1,2: now injection E as <- <-.
  inversion F as [|c' tl' Fc Ft]; subst.
  destruct (off =? n_end c) eqn:E1; [eapply (IH tl); eauto; lia|].
  destruct (off + n =? n_begin c) eqn:E2; [now injection E as <- <-|].
  destruct (n_end c <? off) eqn:E3.
  { destruct tl as [|x tl'].
    - cbn in E. now injection E as <- <-.
    - destruct (n_begin x =? n_end c).
      + inversion Ft; subst. eapply (IH tl'); eauto. cbn [length] in *; lia.
      + eapply (IH (x :: tl')); eauto. lia. }
  destruct (off + n <? n_begin c) eqn:E5; [cbn in E; now injection E as <- <-|].
  exfalso; lia.
Qed.
End Walk.

(** ** One packet cut at positions [B 0 = 0 < B 1 < ... < B N] *)
Section Cut.
Variables (B : nat -> Z) (N : nat).
Hypothesis B0 : B 0 = 0.
Hypothesis Bm : forall i j, (i < j <= N)%nat -> B i < B j.
Hypothesis BN : B N <= 1500.
Hypothesis N2 : (2 <= N)%nat.

Definition mf_of (i : nat) : Z := if (S i <? N)%nat then 1 else 0.

Lemma B_le i j : (i <= j <= N)%nat -> B i <= B j.
Proof. intros H. destruct (Nat.eq_dec i j); [subst; lia|]. specialize (Bm (i := i) (j := j)); lia. Qed.
Lemma B_lt_inv i j : (i <= N)%nat -> (j <= N)%nat -> B i < B j -> (i < j)%nat.
Proof.
  intros. destruct (Nat.lt_ge_cases i j); auto.
  pose proof (B_le (i := j) (j := i)); lia.
Qed.
Lemma B_nonneg i : (i <= N)%nat -> 0 <= B i.
Proof. intros; rewrite <- B0; apply B_le; lia. Qed.
Lemma B_max i : (i <= N)%nat -> B i <= 1500.
Proof. intros. pose proof (B_le (i := i) (j := N)); lia. Qed.
Lemma B_inj i j : (i <= N)%nat -> (j <= N)%nat -> B i = B j -> i = j.
Proof.
  intros. destruct (Nat.lt_trichotomy i j) as [L|[L|L]]; auto;
  [specialize (Bm (i := i) (j := j))|specialize (Bm (i := j) (j := i))]; lia.
Qed.

Lemma mf0_iff i : (mf_of i =? 0) = (N <=? S i)%nat.
Proof.
  unfold mf_of. destruct (Nat.ltb_spec (S i) N), (Nat.leb_spec N (S i)); auto; lia.
Qed.

(** A node is a run of received pieces. *)
Definition run (R : nat -> Prop) (c : node) : Prop :=
  exists a b, (a < b <= N)%nat /\ n_begin c = B a /\ n_end c = B b /\
    n_last c = (N <=? b)%nat /\ forall i, (a <= i < b)%nat -> R i.

(** All pieces in one run. *)
Definition single (R : nat -> Prop) (l : list node) : Prop :=
  exists a b, (a < b <= N)%nat /\ l = [Node (B a) (B b) (N <=? b)%nat] /\
    forall i, (a <= i < b)%nat <-> R i.

(** A hole was seen: the head of the list can never reach a received piece. *)
Definition broken (R : nat -> Prop) (l : list node) : Prop :=
  nadj l /\ Forall (run R) l /\
  exists h t f, l = h :: t /\ R f /\ (f < N)%nat /\ n_end h <= B f.

Definition add (R : nat -> Prop) (i : nat) : nat -> Prop := fun j => j = i \/ R j.

Lemma run_mono R i c : run R c -> run (add R i) c.
Proof.
  intros (a & b & H1 & H2 & H3 & H4 & H5). exists a, b; repeat split; auto; try lia.
  intros j Hj. right; auto.
Qed.

Lemma run_lt R c : run R c -> n_begin c < n_end c.
Proof. intros (a & b & H1 & H2 & H3 & _). rewrite H2, H3. apply Bm; lia. Qed.

Section Step.
Variables (R : nat -> Prop) (i : nat).
Hypothesis Hi : (i < N)%nat.
Hypothesis NR : ~ R i.

Let off := B i.
Let n := B (S i) - B i.
Lemma step_off : 0 <= off. Proof. apply B_nonneg; lia. Qed.
Lemma step_n : 0 < n. Proof. unfold n. specialize (Bm (i := i) (j := S i)); lia. Qed.
Lemma step_on : off + n <= 1500.
Proof. unfold off, n. pose proof (B_max (i := S i)); lia. Qed.
Lemma step_end : off + n = B (S i). Proof. unfold off, n; lia. Qed.

Lemma run_new : run (add R i) (nd_of off n (mf_of i)).
Proof.
  exists i, (S i). cbn [nd_of n_begin n_end n_last]. rewrite step_end, mf0_iff.
  repeat split; auto; try lia. intros j Hj. left; lia.
Qed.

Lemma run_ext c : run (add R i) c -> off = n_end c ->
  run (add R i) (Node (n_begin c) (off + n) (mf_of i =? 0)).
Proof.
  intros (a & b & H1 & H2 & H3 & H4 & H5) E.
  assert (b = i) as -> by (apply B_inj; [lia|lia|unfold off in E; congruence]).
  exists a, (S i). cbn [n_begin n_end n_last]. rewrite step_end, mf0_iff.
  repeat split; auto; try lia. intros j Hj. destruct (Nat.eq_dec j i); [now left|apply H5; lia].
Qed.

Lemma run_pre c : run (add R i) c -> off + n = n_begin c ->
  run (add R i) (Node off (n_end c) (n_last c)).
Proof.
  intros (a & b & H1 & H2 & H3 & H4 & H5) E. rewrite step_end in E.
  assert (a = S i) as -> by (apply B_inj; [lia|lia|congruence]).
  exists i, b. cbn [n_begin n_end n_last].
  repeat split; auto; try lia. intros j Hj. destruct (Nat.eq_dec j i); [now left|apply H5; lia].
Qed.

Lemma run_disjoint c : run R c -> n_end c <= off \/ off + n <= n_begin c.
Proof.
  intros (a & b & H1 & H2 & H3 & H4 & H5). rewrite step_end, H2, H3. unfold off.
  destruct (Nat.lt_ge_cases i a) as [L|L].
  - right. apply B_le; lia.
  - destruct (Nat.lt_ge_cases i b) as [L'|L']; [exfalso; apply NR, H5; lia|].
    left. apply B_le; lia.
Qed.

Lemma step_broken l l' ok :
  broken R l -> walk true off n (mf_of i) [] [] l = Val (l', ok) ->
  ok = true /\ broken (add R i) l'.
Proof.
  intros (NA & FR & h & t & f & -> & Rf & Lf & Ef) E.
  assert (ok = true) as ->.
  { eapply walk_ok; [| |exact E]; [apply le_n|].
    eapply Forall_impl; [|exact FR]. intros; now apply run_disjoint. }
  split; auto.
  assert (Forall (run (add R i)) (h :: t)) as FR'
    by (eapply Forall_impl; [|exact FR]; intros; now apply run_mono).
  destruct (@walk_strong off n (mf_of i) step_off step_n step_on (run (add R i))
              (@run_lt (add R i)) run_ext run_pre run_new (h :: t) [] [] l' true)
    as [FQ NA']; [constructor|constructor|exact FR'|exact I|exact NA|split; exact I|exact E|].
  split; [auto|]. split; [auto|].
  destruct (@walk_hd off n (mf_of i) step_off step_n step_on h t l' true E)
    as (h' & t' & -> & [-> |[(E1 & ->)|[(E1 & ->)|[(x & I & E1 & ->)|(-> & y & I & Y)]]]]).
  - exists h, t', f. repeat split; auto. now right.
  - exists (Node (n_begin h) (off + n) (mf_of i =? 0)), t', f. cbn [n_end].
    repeat split; auto; [now right|]. rewrite step_end. unfold off in E1.
    rewrite <- E1 in Ef.
    destruct (Nat.eq_dec f i) as [->|Ne]; [contradiction|].
    destruct (Nat.lt_ge_cases f i) as [L|L];
      [specialize (Bm (i := f) (j := i)); lia|apply B_le; lia].
  - exists (Node off (n_end h) (n_last h)), t', f. cbn [n_end].
    repeat split; auto. now right.
  - exists (Node (n_begin h) (n_end h) (n_last x)), t', f. cbn [n_end].
    repeat split; auto. now right.
  - rewrite Forall_forall in FR. destruct (FR y I) as (a & b & H1 & H2 & H3 & H4 & H5).
    exists (nd_of off n (mf_of i)), t', a. cbn [nd_of n_end].
    repeat split; auto; [right; apply H5; lia|lia|lia].
Qed.

Lemma step_single l l' ok :
  single R l -> walk true off n (mf_of i) [] [] l = Val (l', ok) ->
  ok = true /\ (single (add R i) l' \/
    (broken (add R i) l' /\ ~ exists a b, forall j, add R i j <-> (a <= j < b)%nat)).
Proof.
  intros (a & b & Hab & -> & HR) E.
  assert (~ (a <= i < b)%nat) as NI by (intros H; apply NR, HR, H).
  pose proof step_off; pose proof step_n; pose proof step_on; pose proof step_end.
  cbn [walk n_end n_begin n_last] in E.
  rewrite u16_small in E by lia.
  assert (forall c d, (forall j, add R i j <-> (c <= j < d)%nat) -> (S i < a \/ b < i)%nat -> False)
    as NC.
  { intros c d H' [L|L].
    - assert (add R i i) as A1 by (now left). assert (add R i a) as A2 by (right; apply HR; lia).
      assert (add R i (S i)) as A3 by (apply H'; apply H' in A1; apply H' in A2; lia).
      destruct A3 as [A3|A3]; [lia|]. apply HR in A3. lia.
    - assert (add R i i) as A1 by (now left).
      assert (add R i (b - 1)%nat) as A2 by (right; apply HR; lia).
      assert (add R i b) as A3 by (apply H'; apply H' in A1; apply H' in A2; lia).
      destruct A3 as [A3|A3]; [lia|]. apply HR in A3. lia. }
  destruct (off =? B b) eqn:E1.
  { assert (i = b) as Eb by (apply B_inj; [lia|lia|unfold off in E1; lia]).
    cbn in E. injection E as <- <-. split; auto. left.
    exists a, (S b). rewrite step_end, mf0_iff, Eb.
    split; [lia|]. split; [reflexivity|]. unfold add. intros j. split.
    - intros Hj. destruct (Nat.eq_dec j b); [left; lia|]. right; apply HR; lia.
    - intros [?|?%HR]; lia. }
  destruct (off + n =? B a) eqn:E2.
  { assert (S i = a) as Ea by (apply B_inj; [lia|lia|lia]).
    rewrite u16_small in E by lia. cbn in E. injection E as <- <-. split; auto. left.
    exists i, b. split; [lia|]. split; [reflexivity|]. unfold add. intros j. split.
    - intros Hj. destruct (Nat.eq_dec j i); [left; lia|]. right; apply HR; lia.
    - intros [?|?%HR]; lia. }
  assert (run (add R i) (Node (B a) (B b) (N <=? b)%nat)) as RunS.
  { exists a, b; repeat split; auto; try lia. intros; right; apply HR; lia. }
  pose proof run_new as RN.
  destruct (B b <? off) eqn:E3.
  { assert (b < i)%nat as L by (apply B_lt_inv; unfold off in *; lia).
    unfold new_node in E. rewrite !u16_small in E by lia. cbn in E. injection E as <- <-.
    split; auto. right. split.
    - split; [cbn; split; [unfold off in *; lia|exact I]|]. split.
      + repeat constructor; auto.
      + eexists _, _, i. split; [reflexivity|]. repeat split; auto; [now left|].
        cbn [n_end]. unfold off in *; lia.
    - intros (c & d & F). eapply NC; [exact F|lia]. }
  destruct (off + n <? B a) eqn:E4.
  { assert (S i < a)%nat as L by (apply B_lt_inv; lia).
    unfold new_node in E. rewrite !u16_small in E by lia. cbn in E. injection E as <- <-.
    split; auto. right. split.
    - split; [cbn; split; [lia|exact I]|]. split.
      + repeat constructor; auto.
      + eexists _, _, a. split; [reflexivity|]. repeat split; auto; [|lia|].
        * right; apply HR; lia.
        * cbn [n_end]. lia.
    - intros (c & d & F). eapply NC; [exact F|lia]. }
  exfalso. destruct (Nat.lt_ge_cases i a) as [L|L].
  - pose proof (B_le (i := S i) (j := a)); lia.
  - pose proof (B_le (i := b) (j := i)); unfold off in *; lia.
Qed.
End Step.

(** Not assembled while something is missing, assembled when all is there. *)
Lemma broken_not_assembled R l :
  broken R l -> exists h t, l = h :: t /\ n_last h && (n_begin h =? 0) = false.
Proof.
  intros (_ & FR & h & t & f & -> & Rf & Lf & Ef). exists h, t; split; auto.
  inversion FR as [|h' t' (a & b & H1 & H2 & H3 & H4 & H5) Ft]; subst.
  rewrite H4. destruct (Nat.leb_spec N b); [|reflexivity]. exfalso.
  assert (b = N) as -> by lia. specialize (Bm (i := f) (j := N)). lia.
Qed.

Lemma single_assembled R l :
  single R l -> exists h t, l = h :: t /\
   (n_last h && (n_begin h =? 0) = true <-> forall i, (i < N)%nat -> R i) /\
   ((forall i, (i < N)%nat -> R i) -> n_end h = B N).
Proof.
  intros (a & b & Hab & -> & HR). eexists _, _; split; [reflexivity|].
  cbn [n_last n_begin n_end]. split; [split|].
  - intros H j Hj. destruct (Nat.leb_spec N b); [|discriminate]. cbn in H.
    assert (a = 0%nat) by (apply B_inj; lia). apply HR; lia.
  - intros H. assert (R 0%nat) as R0 by (apply H; lia).
    assert (R (N - 1)%nat) as R1 by (apply H; lia).
    apply HR in R0; apply HR in R1.
    destruct (Nat.leb_spec N b); [|lia]. assert (a = 0%nat) as -> by lia. rewrite B0. reflexivity.
  - intros H. assert (R (N - 1)%nat) as R1 by (apply H; lia). apply HR in R1.
    f_equal; lia.
Qed.
End Cut.
