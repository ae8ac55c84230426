(** Reassembly of the fragments of one packet, received in any order, any number of
    times, some of them not at all: what is completed is the packet. *)
From Verif Require Import Base Codes Frag FragSpec FragProofs ReasmTable FragHistory.
Unset Strict Implicit.

(** ** One walk along the nodes *)
Section W.
Variable Bd : Z -> Prop.            (* where pieces begin and end *)
Variable L : Z.                     (* where the packet ends *)
Variable P : Z -> Prop.             (* positions whose byte is right *)
Variables o l mf : Z.
Hypothesis Ho : 0 <= o.
Hypothesis Hl : 0 < l.
Hypothesis Hol : o + l <= 1500.
Hypothesis Hmf : mf = 0 -> o + l = L.
Hypothesis Bo : Bd o.
Hypothesis Bl : Bd (o + l).
Hypothesis Batom : forall x, Bd x -> x <= o \/ o + l <= x.
Definition fits (nd : node) : Prop :=
  Bd (n_begin nd) /\ Bd (n_end nd) /\ 0 <= n_begin nd < n_end nd /\ n_end nd <= 1500 /\ (n_last nd = true -> n_end nd = L).
Definition old (nd : node) : Prop := fits nd /\ forall x, n_begin nd <= x < n_end nd -> P x.
Definition new (nd : node) : Prop := fits nd /\ forall x, n_begin nd <= x < n_end nd -> P x \/ o <= x < o + l.
Lemma old_new nd : old nd -> new nd.
Proof. intros [A B]. split; auto. Qed.
Fixpoint apart (l : list node) : Prop :=
  match l with x :: t => match t with y :: _ => n_begin y <> n_end x | [] => True end /\ apart t | [] => True end.
(** The reversed prefix [d] goes before a node that begins at [b]. *)
Fixpoint okr (d : list node) (b : Z) : Prop :=
  match d with [] => True | x :: t => n_end x <> b /\ okr t (n_begin x) end.
Definition okt (d : list node) : Prop := match d with [] => True | x :: t => okr t (n_begin x) end.
Lemma apart_rev d : forall r, apart (rev d ++ r) <-> apart r /\ match r with y :: _ => okr d (n_begin y) | [] => okt d end.
Proof.
  induction d as [|x d IH]; intros r; cbn [rev app].
  - cbn. destruct r; tauto.
  - rewrite <- app_assoc. cbn [app]. rewrite IH. cbn [apart okr okt]. destruct r as [|y r].
    + cbn. tauto.
    + assert (n_begin y <> n_end x <-> n_end x <> n_begin y) by (split; congruence). tauto.
Qed.
Lemma okr_o d : okt d -> Forall (fun nd => n_end nd <> o) d -> okr d o.
Proof. destruct d as [|x d]; cbn; [auto|]. intros A F. inversion_clear F. auto. Qed.
Definition link (d rest : list node) : Prop :=
  match d, rest with x :: _, y :: _ => n_begin y <> n_end x \/ n_end x = o + l | _, _ => True end.
Lemma link_okr d y r : link d (y :: r) -> okt d -> n_begin y <> o + l -> okr d (n_begin y).
Proof. destruct d as [|x d]; cbn; [auto|]. intros [A|A] B C; split; auto; congruence. Qed.

Lemma walk_honest alloc : forall rest kept skip r ok,
  let d := skip ++ kept in
  Forall new d -> Forall (fun nd => n_end nd <> o) d -> okt d -> Forall old rest -> apart rest -> link d rest ->
  walk alloc o l mf kept skip rest = Val (r, ok) ->
  Forall new r /\ apart r /\ (ok = false -> forall x, o <= x < o + l -> P x).
Proof.
  assert (u16 o = o) as Uo by (apply u16_small; lia). assert (u16 (o + l) = o + l) as Uol by (apply u16_small; lia).
  assert (new (Node o (o + l) (mf =? 0))) as Nn.
  { split; [|cbn; auto]. split; [exact Bo|]. split; [exact Bl|]. cbn [n_begin n_end n_last]. split; [lia|]. split; [lia|]. intros Q. apply Hmf. lia. }
  assert (forall k s x : list node, rev k ++ rev s ++ x = rev (s ++ k) ++ x) as Rv by (intros; rewrite rev_app_distr, app_assoc; reflexivity).
  induction rest as [|curr tl IH]; intros kept skip r ok d Fd Fe Ot Fr Ap Lk; cbn [walk].
  - intros [= <- <-]. rewrite <- rev_app_distr. fold d. rewrite <- (app_nil_r (rev d)). split; [rewrite app_nil_r; now apply Forall_rev|]. split; [|discriminate]. apply apart_rev. cbn. auto.
  - inversion Fr as [|? ? [Cf Cp] Ftl]; subst. destruct Ap as [Ap1 Ap2]. destruct Cf as (B1 & B2 & Bb & B15 & Bl').
    assert (Forall new (curr :: tl)) as Frn by (eapply Forall_impl; [|exact Fr]; apply old_new).
    destruct (Z.eqb_spec o (n_end curr)) as [Qe|Ne].
    { intros H. refine (IH kept (_ :: skip) r ok _ _ _ Ftl Ap2 _ H); rewrite Uol; cbn [app].
      - constructor; [|exact Fd]. split.
        + split; [exact B1|]. split; [exact Bl|]. cbn [n_begin n_end n_last]. split; [lia|]. split; [lia|]. intros Q. apply Hmf. lia.
        + cbn [n_begin n_end]. intros x Hx. destruct (Z.lt_ge_cases x (n_end curr)); [left; apply Cp; lia|right; lia].
      - constructor; [cbn; lia|exact Fe].
      - cbn [okt n_begin]. apply (link_okr Lk Ot). lia.
      - cbn [link]. destruct tl; [exact I|]. now right. }
    destruct (Z.eqb_spec (o + l) (n_begin curr)) as [Qb|Nb].
    { intros [= <- <-]. rewrite Rv. fold d. rewrite Uo. split; [|split; [|discriminate]].
      - apply Forall_app. split; [now apply Forall_rev|]. constructor; [|inversion Frn; assumption]. split.
        + split; [exact Bo|]. split; [exact B2|]. cbn [n_begin n_end n_last]. split; [lia|]. auto.
        + cbn [n_begin n_end]. intros x Hx. destruct (Z.lt_ge_cases x (n_begin curr)); [right; lia|left; apply Cp; lia].
      - apply apart_rev. split; [|cbn [n_begin]; now apply okr_o]. cbn [apart n_end]. split; [exact Ap1|exact Ap2]. }
    destruct (Z.ltb_spec (n_end curr) o) as [Lt|Ge].
    { destruct tl as [|next tl'].
      - unfold new_node. destruct alloc; cbn [rbind]; [|discriminate]. intros [= <- <-]. rewrite Rv. fold d. rewrite Uo, Uol. split; [|split; [|discriminate]].
        + apply Forall_app. split; [now apply Forall_rev|]. inversion Frn. constructor; [assumption|]. constructor; [exact Nn|constructor].
        + apply apart_rev. split; [cbn; repeat split; lia|]. apply (link_okr Lk Ot). lia.
      - destruct (Z.eqb_spec (n_begin next) (n_end curr)) as [Q|_]; [contradiction|].
        intros H. refine (IH (curr :: skip ++ kept) [] r ok _ _ _ Ftl Ap2 _ H); cbn [app].
        + constructor; [inversion Frn; assumption|exact Fd].
        + constructor; [lia|exact Fe].
        + cbn [okt]. apply (link_okr Lk Ot). lia.
        + cbn [link]. now left. }
    destruct (Z.ltb_spec (o + l) (n_begin curr)) as [Lb|Gb].
    { unfold new_node. destruct alloc; cbn [rbind]; [|discriminate]. intros [= <- <-]. rewrite Uo, Uol.
      assert (Forall new kept /\ Forall (fun nd => n_end nd <> o) kept) as [Fk Fek] by (unfold d in *; apply Forall_app in Fd as [_ ?]; apply Forall_app in Fe as [_ ?]; auto).
      split; [|split; [|discriminate]].
      - apply Forall_app. split; [now apply Forall_rev|]. constructor; assumption.
      - apply apart_rev. split; [cbn [apart n_end]; split; [lia|]; split; assumption|]. cbn [n_begin]. apply okr_o; [|exact Fek].
        clear - Ot. unfold d in Ot. assert (forall a k b, okr (a ++ k) b -> okt k) as Dr.
        { induction a as [|x a IHa]; cbn [app okr]; intros k b.
          - destruct k; cbn; tauto.
          - intros [_ H]. now apply IHa in H. }
        destruct skip as [|x s]; [exact Ot|]. cbn [app okt] in Ot. now apply Dr in Ot. }
    intros [= <- <-]. rewrite Rv. fold d. split; [|split].
    + apply Forall_app. split; [now apply Forall_rev|exact Frn].
    + apply apart_rev. split; [split; assumption|]. apply (link_okr Lk Ot). lia.
    + intros _ x Hx. apply Cp. destruct (Batom B1), (Batom B2); lia.
Qed.
End W.

(** ** One entry that gets pieces of one packet *)
Section E.
Variable cs : list bytes.
Hypothesis NE : Forall (fun c => c <> []) cs.
Definition start (k : nat) : Z := len (concat (firstn k cs)).
Definition bound (x : Z) : Prop := exists k, (k <= length cs)%nat /\ x = start k.
Definition packet : bytes := concat cs.
Definition right_at (d : bytes) (x : Z) : Prop := nth (Z.to_nat x) d 0 = nth (Z.to_nat x) packet 0.
Lemma start_S k : (k < length cs)%nat -> start (S k) = start k + len (nth k cs []).
Proof.
  intros H. unfold start. rewrite (@firstn_S_nth bytes _ _ []) by exact H. rewrite concat_app, len_app. cbn [concat]. now rewrite app_nil_r.
Qed.
Lemma piece_pos k : (k < length cs)%nat -> 0 < len (nth k cs []).
Proof.
  intros H. rewrite Forall_forall in NE. assert (nth k cs [] <> []) as Ne by (apply NE, nth_In, H).
  destruct (nth k cs []); [congruence|]. rewrite len_cons. pose proof (len_nonneg b); lia.
Qed.
Lemma start_mono i j : (i < j <= length cs)%nat -> start i < start j.
Proof.
  intros [L1 L2]. induction j as [|j IH]; [lia|]. rewrite start_S by lia. pose proof (@piece_pos j).
  destruct (Nat.eq_dec i j) as [->|]; [lia|]. specialize (IH ltac:(lia) ltac:(lia)). lia.
Qed.
Lemma start_end : start (length cs) = len packet.
Proof. unfold start. now rewrite firstn_all. Qed.
Lemma bound_atom i x : (i < length cs)%nat -> bound x -> x <= start i \/ start i + len (nth i cs []) <= x.
Proof.
  intros Hi (k & Hk & ->). rewrite <- start_S by exact Hi. destruct (le_lt_dec k i) as [L|L].
  - left. destruct (Nat.eq_dec k i) as [->|]; [lia|]. pose proof (@start_mono k i). lia.
  - right. destruct (Nat.eq_dec k (S i)) as [->|]; [lia|]. pose proof (@start_mono (S i) k). lia.
Qed.
Lemma piece_right i j : (i < length cs)%nat -> 0 <= j < len (nth i cs []) -> nth (Z.to_nat j) (nth i cs []) 0 = nth (Z.to_nat (start i + j)) packet 0.
Proof.
  intros Hi Hj. unfold packet. rewrite <- (firstn_skipn (S i) cs) at 2. rewrite (@firstn_S_nth bytes _ _ []) by exact Hi.
  rewrite !concat_app. cbn [concat]. rewrite app_nil_r, <- app_assoc. unfold start, len in *. rewrite app_nth2 by lia. rewrite app_nth1 by lia. f_equal. lia.
Qed.
Definition honest (e : entry) : Prop :=
  len (fe_data e) = 1500 /\ Forall (old bound (len packet) (right_at (fe_data e))) (fe_nodes e) /\ apart (fe_nodes e).
Lemma honest_fresh t : honest (Entry (zeros HE_MAX_WIRE_MTU) t []).
Proof. split; [apply len_zeros; unfold HE_MAX_WIRE_MTU; lia|]. split; [constructor|exact I]. Qed.
Lemma start_nonneg k : 0 <= start k. Proof. apply len_nonneg. Qed.
Lemma nth_ext_Z (a b : bytes) : len a = len b -> (forall x, 0 <= x < len a -> nth (Z.to_nat x) a 0 = nth (Z.to_nat x) b 0) -> a = b.
Proof.
  unfold len. intros L H. apply (nth_ext a b 0 0); [lia|]. intros k Hk. specialize (H (Z.of_nat k) ltac:(lia)). now rewrite Nat2Z.id in H.
Qed.
Lemma entry_honest alloc e i rc a e' : honest e -> (i < length cs)%nat ->
  entry_update alloc e (f_data (piece cs i)) (f_off (piece cs i)) (f_mf (piece cs i)) = Val (rc, a, e') ->
  honest e' /\ (a = true -> exists h t, fe_nodes e' = h :: t /\ ldn (fe_data e') 0 (n_end h) = Val packet).
Proof.
  intros (L & F & A) Hi. cbn [piece f_data f_off f_mf]. fold (start i). set (o := start i). set (dt := nth i cs []). set (mf := if (S i <? length cs)%nat then 1 else 0).
  unfold entry_update. change HE_MAX_WIRE_MTU with 1500.
  destruct (Z.ltb_spec 1500 (o + len dt)) as [Big|Small].
  { intros [= <- <- <-]. split; [split; [exact L|auto]|discriminate]. }
  assert (0 <= o) as Ho by apply start_nonneg. assert (0 < len dt) as Hd by now apply piece_pos.
  assert (mf = 0 -> o + len dt = len packet) as Hmf.
  { unfold mf. destruct (Nat.ltb_spec (S i) (length cs)) as [Lt|Ge]; [discriminate|]. intros _.
    rewrite <- start_end. unfold o, dt. rewrite <- start_S by exact Hi. f_equal. lia. }
  assert (bound o) as Bo by (exists i; split; [lia|reflexivity]).
  assert (bound (o + len dt)) as Bl by (exists (S i); split; [lia|]; unfold o, dt; now rewrite start_S).
  assert (forall x, bound x -> x <= o \/ o + len dt <= x) as At by (intros x; now apply bound_atom).
  assert (forall d, stn (fe_data e) o dt = Val d -> len d = 1500 /\
            forall nd, new bound (len packet) (right_at (fe_data e)) o (len dt) nd -> old bound (len packet) (right_at d) nd) as Sto.
  { intros d St. split; [rewrite (stn_len _ _ _ St); exact L|]. intros nd [Ft N]. split; [exact Ft|].
    intros x Hx. destruct Ft as (_ & _ & R1 & R2 & _). unfold right_at. rewrite (nth_stn St) by lia.
    destruct ((o <=? x) && (x <? o + len dt)) eqn:Q.
    - unfold dt. rewrite piece_right by (auto; fold dt; lia). fold o. do 2 f_equal. lia.
    - destruct (N x Hx) as [P|P]; [exact P|lia]. }
  destruct (fe_nodes e) as [|h0 t0] eqn:En.
  - unfold new_node. destruct alloc; cbn [rbind]; [|discriminate].
    destruct (stn (fe_data e) o dt) as [d|] eqn:St; cbn [rbind]; [|discriminate]. intros [= <- <- <-]. destruct (Sto _ eq_refl) as [Ld Sn].
    split; [|discriminate]. split; [exact Ld|]. cbn [fe_nodes fe_data]. rewrite !u16_small by lia. split; [|repeat split].
    constructor; [|constructor]. apply Sn. split; [|cbn; auto]. split; [exact Bo|]. split; [exact Bl|]. cbn [n_begin n_end n_last]. split; [lia|]. split; [lia|]. intros Q. apply Hmf. lia.
  - destruct (walk alloc o (len dt) mf [] [] (h0 :: t0)) as [[nodes ok]|] eqn:Wk; cbn [rbind]; [|discriminate].
    assert (Forall (new bound (len packet) (right_at (fe_data e)) o (len dt)) nodes /\ apart nodes /\ (ok = false -> forall x, o <= x < o + len dt -> right_at (fe_data e) x)) as (Fn & An & Fo).
    { refine (@walk_honest bound (len packet) (right_at (fe_data e)) o (len dt) mf Ho Hd ltac:(lia) Hmf Bo Bl At alloc (h0 :: t0) [] [] nodes ok _ _ _ F A _ Wk); cbn; auto. }
    destruct ok.
    + destruct (stn (fe_data e) o dt) as [d|] eqn:St; cbn [rbind]; [|discriminate]. destruct (Sto _ eq_refl) as [Ld Sn].
      destruct nodes as [|h t]; [discriminate|]. intros [= <- <- <-].
      assert (Forall (old bound (len packet) (right_at d)) (h :: t)) as Fold by (eapply Forall_impl; [|exact Fn]; exact Sn).
      split; [split; [exact Ld|cbn [fe_nodes fe_data]; auto]|].
      intros Q. apply andb_true_iff in Q as [Q1 Q2]. apply Z.eqb_eq in Q2. exists h, t. split; [reflexivity|]. cbn [fe_data].
      inversion Fold as [|? ? [Ft N] _]; subst. destruct Ft as (_ & _ & R1 & R2 & R3). specialize (R3 Q1). rewrite R3 in *.
      rewrite ldn_ok by lia. f_equal. apply nth_ext_Z; rewrite len_slice by lia; [reflexivity|].
      intros x Hx. rewrite nth_slice by lia. change (Z.to_nat 0 + Z.to_nat x)%nat with (Z.to_nat x). apply N. lia.
    + intros [= <- <- <-]. split; [|discriminate]. split; [exact L|]. cbn [fe_nodes fe_data]. split; [|exact An].
      eapply Forall_impl; [|exact Fn]. intros nd [Ft N]. split; [exact Ft|]. intros x Hx. destruct (N x Hx); auto.
Qed.
End E.

(** ** The table *)
Definition cut : Type := Z * list bytes.
Section T.
Variable n : Z.
Hypothesis Hn : 1 <= n <= 65536.
Variable cuts : list cut.
Hypothesis NE : forall c, In c cuts -> Forall (fun x => x <> []) (snd c).
Hypothesis One : forall c c', In c cuts -> In c' cuts -> fst c mod n = fst c' mod n -> c = c'.
Definition honest_table (t : table) : Prop :=
  t_num t = n /\ forall i e, t_get t i = Some e -> forall c, In c cuts -> fst c mod n = i -> honest (snd c) e.
Lemma store_honest a1 a2 n1 n2 t c i rc o t' : honest_table t -> In c cuts -> (i < length (snd c))%nat ->
  frag_store a1 a2 n1 n2 t (fst c) (f_off (piece (snd c) i)) (f_mf (piece (snd c) i)) (f_data (piece (snd c) i)) = Val (rc, o, t') ->
  honest_table t' /\ (forall p, o = Some p -> p = concat (snd c)).
Proof.
  intros [Nt G] Ic Hi. unfold frag_store.
  assert (slot t (fst c) = fst c mod n) as Sl by (now apply (slot_mod Hn)).
  assert (forall c', In c' cuts -> fst c' mod n = fst c mod n -> c' = c) as One' by (intros c' I' Q; now apply One).
  destruct (table_find a1 n1 t (fst c)) as [[e|] t1] eqn:Fd.
  - assert (honest (snd c) e /\ honest_table t1 /\ slot t1 (fst c) = fst c mod n) as (He & Ht1 & Sl1).
    { revert Fd. unfold table_find. rewrite Sl. destruct (t_get t (fst c mod n)) as [e0|] eqn:Ge.
      - intros [= <- <-]. split; [eapply G; eauto|]. split; [split; assumption|exact Sl].
      - destruct a1; [|discriminate]. intros [= <- <-]. split; [apply honest_fresh|]. split; [|rewrite slot_set; exact Sl].
        split; [exact Nt|]. cbn [t_set t_get]. intros j e1. destruct (j =? fst c mod n); [|apply G]. intros [= <-] c' _ _. apply honest_fresh. }
    set (e1 := if _ <? _ then _ else e). assert (honest (snd c) e1) as He1 by (unfold e1; destruct (_ <? _); [apply honest_fresh|exact He]). clearbody e1.
    destruct (entry_update a2 e1 _ _ _) as [[[rc1 asm] e2]|] eqn:Up; cbn [rbind]; [|discriminate].
    destruct (entry_honest (NE Ic) He1 Hi Up) as [He2 As].
    assert (honest_table (t_set t1 (slot t1 (fst c)) (Some e2))) as Ht2.
    { split; [apply Ht1|]. cbn [t_set t_get]. rewrite Sl1. intros j e3. destruct (Z.eqb_spec j (fst c mod n)) as [->|]; [|apply Ht1].
      intros [= <-] c' I' Q. now rewrite (One' c' I' Q). }
    destruct (negb (rc1 =? HE_SUCCESS)); [intros [= <- <- <-]; split; [exact Ht2|discriminate]|].
    destruct asm; [|intros [= <- <- <-]; split; [exact Ht2|discriminate]].
    destruct (As eq_refl) as (h & tl & -> & ->). cbn [rbind]. intros [= <- <- <-]. split; [exact Ht2|]. now intros p [= <-].
  - assert (t1 = t) as -> by (revert Fd; unfold table_find; destruct (t_get t (slot t (fst c))); [discriminate|destruct a1; [discriminate|now intros [= <-]]]).
    intros [= <- <- <-]. split; [split; assumption|discriminate].
Qed.
Lemma delete_honest t id : honest_table t -> honest_table (table_delete t id).
Proof. intros [Nt G]. split; [exact Nt|]. cbn [table_delete t_set t_get]. intros j e. destruct (j =? _); [discriminate|apply G]. Qed.
End T.
