(** Proofs about the heap (Heap.v): what is allocated, as a list of cells. *)
From Coq Require Import Permutation.
From Verif Require Import Base Codes Frag FragSpec FragProofs ReasmProofs ReasmTable Heap.
Unset Strict Implicit.
Local Open Scope heap_scope.

(** ** The heap is exactly a list of cells *)
Definition cells := list (Z * cell).
Definition holds (h : heap) (L : cells) : Prop :=
  NoDup (map fst L) /\ (forall a c, h_at h a = Some c <-> In (a, c) L) /\
  (forall a c, In (a, c) L -> 0 < a < h_next h) /\ 0 < h_next h.

Lemma holds_perm h L L' : Permutation L L' -> holds h L -> holds h L'.
Proof.
  intros P (N & A & B & C). split; [|split; [|split]]; auto.
  - eapply Permutation_NoDup; [|exact N]. now apply Permutation_map.
  - intros a c. rewrite A. split; apply Permutation_in; [exact P|now apply Permutation_sym].
  - intros a c I. apply (B a c). eapply Permutation_in; [apply Permutation_sym, P|exact I].
Qed.

Lemma holds_new : holds heap_new [].
Proof. split; [constructor|]. split; [|split]; cbn; try lia; intros a c; now split. Qed.

Lemma pick_here {A} (x : A) l : Permutation (x :: l) (x :: l). Proof. reflexivity. Qed.
Lemma pick_cons {A} (x y : A) r r' : Permutation r (x :: r') -> Permutation (y :: r) (x :: y :: r').
Proof. intros P. rewrite P. constructor. Qed.
Lemma pick_app {A} (x : A) l r r' : Permutation r (x :: r') -> Permutation (l ++ r) (x :: l ++ r').
Proof. intros P. rewrite P. symmetry. apply Permutation_middle. Qed.
Lemma pickl_here {A} (a l : list A) : Permutation (a ++ l) (a ++ l). Proof. reflexivity. Qed.
Lemma pickl_last {A} (a : list A) : Permutation a (a ++ []). Proof. now rewrite app_nil_r. Qed.
Lemma pickl_cons {A} (a : list A) y r r' : Permutation r (a ++ r') -> Permutation (y :: r) (a ++ y :: r').
Proof. intros P. rewrite P. apply Permutation_middle. Qed.
Lemma pickl_app {A} (a l r r' : list A) : Permutation r (a ++ r') -> Permutation (l ++ r) (a ++ l ++ r').
Proof. intros P. rewrite P, !app_assoc. apply Permutation_app_tail, Permutation_app_comm. Qed.
Lemma perm_cons {A} (x : A) l r r' : Permutation r (x :: r') -> Permutation l r' -> Permutation (x :: l) r.
Proof. intros -> ->. reflexivity. Qed.
Lemma perm_app {A} (a l r r' : list A) : Permutation r (a ++ r') -> Permutation l r' -> Permutation (a ++ l) r.
Proof. intros -> ->. reflexivity. Qed.
Lemma perm_last {A} (a r : list A) : Permutation r (a ++ []) -> Permutation a r.
Proof. rewrite app_nil_r. now intros ->. Qed.
Ltac pick := first [apply pick_here | apply pick_cons; pick | apply pick_app; pick].
Ltac pickl := first [apply pickl_here | apply pickl_last | apply pickl_cons; pickl | apply pickl_app; pickl].
Ltac perm1 :=
  first [reflexivity
        | eapply perm_cons; [solve [pick]|perm1]
        | eapply perm_app; [solve [pickl]|perm1]
        | eapply perm_last; solve [pickl]].
Ltac perm := repeat first [progress cbn [app] | rewrite <- app_assoc]; rewrite ?app_nil_r; perm1.

(** ** Running *)
(** [nf]: a NULL dereference is possible. *)
Definition hwp {A} (nf : Prop) (m : H A) (Q : A -> heap -> Prop) (h : heap) : Prop :=
  match m h with HDone a h => Q a h | HFault f => f = FNull /\ nf end.

Section Rules.
Context {A B : Type} (nf : Prop).
Implicit Types (h : heap) (L : cells).
Lemma hwp_bind (m : H A) (k : A -> H B) Q h : hwp nf m (fun a h => hwp nf (k a) Q h) h -> hwp nf (hbind m k) Q h.
Proof. unfold hwp, hbind. destruct (m h); auto. Qed.
Lemma hwp_ret (a : A) (Q : A -> heap -> Prop) h : Q a h -> hwp nf (hret a) Q h. Proof. auto. Qed.
Lemma hwp_mono (m : H A) (Q Q' : A -> heap -> Prop) h : hwp nf m Q h -> (forall a h', Q a h' -> Q' a h') -> hwp nf m Q' h.
Proof. unfold hwp. destruct (m h); auto. Qed.
Lemma hwp_null (Q : A -> heap -> Prop) h : nf -> hwp nf (hfault FNull) Q h.
Proof. cbn. auto. Qed.

Lemma hwp_load a c L (Q : cell -> heap -> Prop) h :
  holds h L -> In (a, c) L -> Q c h -> hwp nf (hload a) Q h.
Proof.
  intros (N & X & Y & Z) I q. unfold hwp, hload.
  pose proof (Y a c I). destruct (Z.eqb_spec a 0); [lia|].
  apply X in I. now rewrite I.
Qed.
Lemma hwp_store a c c' L L' (Q : unit -> heap -> Prop) h :
  holds h L -> Permutation L ((a, c) :: L') ->
  (forall h', holds h' ((a, c') :: L') -> Q tt h') -> hwp nf (hstore a c') Q h.
Proof.
  intros HH P q. apply (holds_perm P) in HH. destruct HH as (N & X & Y & Z0).
  unfold hwp, hstore. assert (I : In (a, c) ((a, c) :: L')) by now left.
  pose proof (Y _ _ I). destruct (Z.eqb_spec a 0); [lia|].
  apply X in I. rewrite I. apply q. inversion N as [|x l NI N']; subst.
  split; [|split; [|split]].
  - exact N.
  - intros b d. cbn [put h_at]. destruct (Z.eqb_spec b a) as [->|D].
    + split; [intros [= <-]; now left|].
      intros [[= ->]|J]; [reflexivity|]. exfalso. apply NI. apply in_map_iff. now exists (a, d).
    + rewrite X. cbn. split; (intros [[= -> ->]|J]; [congruence|now right]).
  - cbn [put h_next]. intros b d [[= <- <-]|J]; [lia|]. apply (Y b d). now right.
  - exact Z0.
Qed.
Lemma hwp_free a c L L' (Q : unit -> heap -> Prop) h :
  holds h L -> Permutation L ((a, c) :: L') ->
  (forall h', holds h' L' -> Q tt h') -> hwp nf (hfree a) Q h.
Proof.
  intros HH P q. apply (holds_perm P) in HH. destruct HH as (N & X & Y & Z0).
  unfold hwp, hfree. assert (I : In (a, c) ((a, c) :: L')) by now left.
  pose proof (Y _ _ I). destruct (Z.eqb_spec a 0); [lia|].
  apply X in I. rewrite I. apply q. inversion N as [|x l NI N']; subst.
  split; [|split; [|split]].
  - exact N'.
  - intros b d. cbn [put h_at]. destruct (Z.eqb_spec b a) as [->|D].
    + split; [discriminate|]. intros J. exfalso. apply NI. apply in_map_iff. now exists (a, d).
    + rewrite X. cbn. split; [intros [[= -> ->]|J]; [congruence|exact J]|now right].
  - cbn [put h_next]. intros b d J. apply (Y b d). now right.
  - exact Z0.
Qed.
Lemma hwp_free0 (Q : unit -> heap -> Prop) h : Q tt h -> hwp nf (hfree 0) Q h.
Proof. auto. Qed.
Lemma hwp_alloc ok c L (Q : Z -> heap -> Prop) h :
  holds h L ->
  (ok = false -> Q 0 h) ->
  (forall a h', ok = true -> 0 < a -> holds h' ((a, c) :: L) -> Q a h') ->
  hwp nf (halloc ok c) Q h.
Proof.
  intros (N & X & Y & Z0) q0 q1. unfold hwp, halloc. destruct ok; [|now apply q0].
  apply q1; [reflexivity|exact Z0|]. split; [|split; [|split]].
  - cbn. constructor; [|exact N]. rewrite in_map_iff. intros ((b & d) & E & J). apply Y in J. cbn in E; lia.
  - intros b d. cbn [put h_at]. destruct (Z.eqb_spec b (h_next h)) as [->|D].
    + split; [intros [= <-]; now left|]. intros [E|J]; [congruence|]. apply Y in J; lia.
    + rewrite X. cbn. split; [now right|intros [E|J]; [congruence|exact J]].
  - cbn [h_next]. intros b d [E|J]; [injection E as E1 E2; lia|]. apply Y in J; lia.
  - cbn [h_next]. lia.
Qed.
Lemma hwp_loop (m : nat -> H A) (Q : A -> heap -> Prop) L h :
  holds h L -> (forall fuel, (length L < fuel)%nat -> hwp nf (m fuel) Q h) -> hwp nf (hloop m) Q h.
Proof.
  intros (N & _ & Y & Z0) q. apply q.
  assert (length (map fst L) <= length (map Z.of_nat (seq 1 (Z.to_nat (h_next h - 1)))))%nat as LE.
  { apply NoDup_incl_length; [exact N|]. intros a I. apply in_map_iff in I as ((b & c) & <- & I). cbn.
    apply Y in I. apply in_map_iff. exists (Z.to_nat b). split; [lia|]. apply in_seq. lia. }
  rewrite !map_length, seq_length in LE. lia.
Qed.
End Rules.

(** Loads of one type *)
Section Loads.
Context (nf : Prop) (h : heap) (L : cells) (HH : holds h L).
Lemma hwp_node a b e l n (Q : Z * Z * bool * Z -> heap -> Prop) : In (a, KNode b e l n) L -> Q (b, e, l, n) h -> hwp nf (load_node a) Q h.
Proof. intros I q. eapply hwp_bind, hwp_load; eauto. Qed.
Lemma hwp_entry a d t f (Q : bytes * Z * Z -> heap -> Prop) : In (a, KEntry d t f) L -> Q (d, t, f) h -> hwp nf (load_entry a) Q h.
Proof. intros I q. eapply hwp_bind, hwp_load; eauto. Qed.
Lemma hwp_slots a l (Q : list Z -> heap -> Prop) : In (a, KSlots l) L -> Q l h -> hwp nf (load_slots a) Q h.
Proof. intros I q. eapply hwp_bind, hwp_load; eauto. Qed.
Lemma hwp_table a n s (Q : Z * Z -> heap -> Prop) : In (a, KTable n s) L -> Q (n, s) h -> hwp nf (load_table a) Q h.
Proof. intros I q. eapply hwp_bind, hwp_load; eauto. Qed.
Lemma hwp_chain a p n (Q : Z * Z -> heap -> Prop) : In (a, KChain p n) L -> Q (p, n) h -> hwp nf (load_chain a) Q h.
Proof. intros I q. eapply hwp_bind, hwp_load; eauto. Qed.
Lemma hwp_conn a t s (Q : Z * Z -> heap -> Prop) : In (a, KConn t s) L -> Q (t, s) h -> hwp nf (load_conn a) Q h.
Proof. intros I q. eapply hwp_bind, hwp_load; eauto. Qed.
Lemma hwp_ctx a w (Q : Z -> heap -> Prop) : In (a, KCtx w) L -> Q w h -> hwp nf (load_ctx a) Q h.
Proof. intros I q. eapply hwp_bind, hwp_load; eauto. Qed.
Lemma hwp_client a x y i o (Q : Z * Z * Z * Z -> heap -> Prop) : In (a, KClient x y i o) L -> Q (x, y, i, o) h -> hwp nf (load_client a) Q h.
Proof. intros I q. eapply hwp_bind, hwp_load; eauto. Qed.
Lemma holds_pos a c : In (a, c) L -> 0 < a.
Proof. destruct HH as (_ & _ & Y & _). intros I. now apply Y in I. Qed.
End Loads.
Ltac isin := repeat rewrite <- app_assoc; cbn [app]; repeat (rewrite in_app_iff || (progress cbn [In])); tauto.

(** ** Lists of nodes *)
Definition addr (l : list (Z * node)) (q : Z) : Z := match l with [] => q | (a, _) :: _ => a end.
Fixpoint nodes (l : list (Z * node)) (q : Z) : cells :=
  match l with
  | [] => []
  | (a, nd) :: tl => (a, KNode (n_begin nd) (n_end nd) (n_last nd) (addr tl q)) :: nodes tl q
  end.
Lemma addr_app l1 l2 q : addr (l1 ++ l2) q = addr l1 (addr l2 q).
Proof. now destruct l1 as [|[a nd] l1]. Qed.
Lemma nodes_app l1 l2 q : nodes (l1 ++ l2) q = nodes l1 (addr l2 q) ++ nodes l2 q.
Proof. induction l1 as [|[a nd] l1 IH]; cbn; [easy|]. now rewrite IH, addr_app. Qed.
Lemma nodes_length l q : length (nodes l q) = length l.
Proof. induction l as [|[a nd] l IH]; cbn; auto. Qed.
Definition is_node (p : Z * cell) : Prop := match snd p with KNode _ _ _ _ => True | _ => False end.
Lemma nodes_is l q : Forall is_node (nodes l q).
Proof. induction l as [|[a nd] l IH]; cbn; constructor; auto. exact I. Qed.

Lemma new_node_spec alloc off n mf next L (Q : Z -> heap -> Prop) h :
  holds h L ->
  (forall a h', alloc = true -> 0 < a -> holds h' ((a, KNode (u16 off) (u16 (off + n)) (mf =? 0) next) :: L) -> Q a h') ->
  hwp (alloc = false) (hnew_node alloc off n mf next) Q h.
Proof.
  intros HH q. apply hwp_bind. eapply hwp_alloc; [exact HH| |].
  - intros ->. apply hwp_bind. cbn. auto.
  - intros a h' Ha Pa HH'. apply hwp_bind. eapply hwp_store; [exact HH'|perm|].
    intros h2 H2. apply hwp_ret. now apply q.
Qed.

Ltac norm := rewrite ?nodes_app, ?addr_app; cbn [rev app nodes addr]; rewrite ?nodes_app, ?addr_app;
  cbn [nodes addr n_begin n_end n_last]; repeat rewrite <- app_assoc; cbn [app].
Ltac norm_in H := rewrite ?nodes_app, ?addr_app in H; cbn [rev app nodes addr] in H; rewrite ?nodes_app, ?addr_app in H;
  cbn [nodes addr n_begin n_end n_last] in H; repeat rewrite <- app_assoc in H; cbn [app] in H.

Section Walk.
Variables (alloc : bool) (pe off n mf : Z) (d : bytes) (t : Z) (F : cells).
Definition walk_post (K S R : list (Z * node)) (ok : bool) (h' : heap) : Prop :=
  exists l' lost, walk alloc off n mf (map snd K) (map snd S) (map snd R) = Val (map snd l', ok) /\
    holds h' ((pe, KEntry d t (addr l' 0)) :: nodes l' 0 ++ lost ++ F) /\
    Forall is_node lost /\
    (lost <> [] -> exists y, In y (map snd R) /\ off + n < n_begin y /\
        (S <> [] \/ exists x, In x (map snd R) /\ n_end x = off)) /\
    (length l' + length lost <= length K + length S + length R + 1)%nat.

Lemma hwalk_spec fuel : forall R K S h, (length R < fuel)%nat ->
  holds h ((pe, KEntry d t (addr (rev K ++ rev S ++ R) 0)) :: nodes (rev K ++ rev S ++ R) 0 ++ F) ->
  hwp (alloc = false) (hwalk fuel alloc pe off n mf (addr K 0) (addr R 0)) (walk_post K S R) h.
Proof.
  induction fuel as [|fuel IH]; [lia|]. intros R K S0 h LF HH. cbn [hwalk].
  destruct R as [|[a nd] R].
  { cbn [addr]. cbn [Z.eqb]. apply hwp_ret. exists (rev K ++ rev S0), [].
    rewrite app_nil_r in HH. cbn [map walk]. split; [now rewrite map_app, !map_rev|].
    split; [exact HH|]. split; [constructor|]. split; [easy|].
    rewrite app_length, !rev_length. cbn. lia. }
  cbn [addr].
  assert (PA : 0 < a). { eapply holds_pos; [exact HH|]. norm. right. rewrite !in_app_iff. right; right. cbn [In]. eauto. }
  destruct (Z.eqb_spec a 0); [lia|]. apply hwp_bind. eapply hwp_node; [exact HH| |].
  { norm. right. rewrite !in_app_iff. right; right. cbn [In]. eauto. }
  cbn [map snd walk length] in *.
  destruct (off =? n_end nd) eqn:E1.
  { apply hwp_bind. eapply hwp_store; [exact HH| |].
    { norm. perm. }
    intros h2 H2. eapply hwp_mono; [apply (IH R K ((a, Node (n_begin nd) (u16 (off + n)) (mf =? 0)) :: S0))|].
    - lia.
    - eapply holds_perm; [|exact H2]. norm. perm.
    - intros ok h' (l' & lost & W & H' & N' & B & C). exists l', lost. cbn [map snd] in W.
      unfold walk_post. cbn [map snd walk]. rewrite E1. split; [exact W|]. split; [exact H'|]. split; [exact N'|].
      split; [|cbn [length] in *; lia]. intros Z0. destruct (B Z0) as (y & Iy & Ly & _). exists y. split; [now right|].
      split; [exact Ly|]. right. exists nd. split; [now left|lia]. }
  destruct (off + n =? n_begin nd) eqn:E2.
  { apply hwp_bind. eapply hwp_store; [exact HH| |].
    { norm. perm. }
    intros h2 H2. apply hwp_ret. exists (rev K ++ rev S0 ++ (a, Node (u16 off) (n_end nd) (n_last nd)) :: R), [].
    cbn [map snd walk]. rewrite E1, E2. split; [now rewrite !map_app, !map_rev|].
    split; [eapply holds_perm; [|exact H2]; norm; perm|]. split; [constructor|]. split; [easy|].
    rewrite !app_length, !rev_length. cbn [length]. lia. }
  destruct (n_end nd <? off) eqn:E3.
  { destruct R as [|[a2 nd2] R].
    - cbn [addr]. cbn [Z.eqb negb]. apply hwp_bind. eapply new_node_spec; [exact HH|].
      intros a2 h2 AL P2 H2. apply hwp_bind. eapply hwp_store; [exact H2|norm; perm|].
      intros h3 H3. apply hwp_ret.
      exists (rev K ++ rev S0 ++ [(a, nd); (a2, Node (u16 off) (u16 (off + n)) (mf =? 0))]), [].
      cbn [map snd walk]. rewrite E1, E2, E3. unfold new_node; rewrite AL; cbn [rbind]. split; [now rewrite !map_app, !map_rev|].
      split; [eapply holds_perm; [|exact H3]; norm; perm|]. split; [constructor|]. split; [easy|].
      rewrite !app_length, !rev_length. cbn [length]. lia.
    - cbn [addr].
      assert (P2 : 0 < a2).
      { eapply holds_pos; [exact HH|]. norm. right. rewrite !in_app_iff. right; right. cbn [In]. eauto. }
      destruct (Z.eqb_spec a2 0); [lia|]. cbn [negb]. apply hwp_bind. eapply hwp_node; [exact HH| |].
      { norm. right. rewrite !in_app_iff. right; right. cbn [In]. eauto. }
      destruct (n_begin nd2 =? n_end nd) eqn:E4.
      + apply hwp_bind. eapply hwp_store; [exact HH|norm; perm|]. intros h2 H2.
        apply hwp_bind. eapply hwp_free; [exact H2|pick|]. intros h3 H3. cbn beta iota in H3.
        eapply hwp_mono; [apply (IH R ((a, Node (n_begin nd) (n_begin nd2) (n_last nd2)) :: S0 ++ K) [])|].
        * cbn [length] in LF; lia.
        * eapply holds_perm; [|exact H3]. cbn [rev]. rewrite rev_app_distr. norm. perm.
        * intros ok h' (l' & lost & W & H' & N' & B & C). exists l', lost. cbn [map snd walk].
          rewrite E1, E2, E3, E4. cbn [map snd] in W. rewrite map_app in W. split; [exact W|].
          split; [exact H'|]. split; [exact N'|]. split.
          -- intros Z0. destruct (B Z0) as (y & Iy & Ly & [[]|(x & Ix & Lx)]); [easy|]. exists y.
             split; [now right; right|]. split; [exact Ly|]. right. exists x. split; [now right; right|exact Lx].
          -- cbn [length] in *. rewrite app_length in C. lia.
      + eapply hwp_mono; [apply (IH ((a2, nd2) :: R) ((a, nd) :: S0 ++ K) [])|].
        * cbn [length] in *; lia.
        * eapply holds_perm; [|exact HH]. cbn [rev]. rewrite rev_app_distr. norm. perm.
        * intros ok h' (l' & lost & W & H' & N' & B & C). exists l', lost. cbn [map snd walk].
          rewrite E1, E2, E3, E4. cbn [map snd] in W. rewrite map_app in W. split; [exact W|].
          split; [exact H'|]. split; [exact N'|]. split.
          -- intros Z0. destruct (B Z0) as (y & Iy & Ly & [[]|(x & Ix & Lx)]); [easy|]. exists y.
             split; [now right|]. split; [exact Ly|]. right. exists x. split; [now right|exact Lx].
          -- cbn [length] in *. rewrite app_length in C. lia. }
  destruct (off + n <? n_begin nd) eqn:E4.
  { apply hwp_bind. eapply new_node_spec; [exact HH|]. intros a2 h2 AL P2 H2.
    apply hwp_bind. destruct K as [|[p pn] K].
    - cbn [addr Z.eqb]. apply hwp_bind. eapply hwp_entry; [exact H2|norm; right; left; reflexivity|].
      eapply hwp_store; [exact H2|norm; pick|]. intros h3 H3. apply hwp_ret.
      exists ((a2, Node (u16 off) (u16 (off + n)) (mf =? 0)) :: (a, nd) :: R), (nodes (rev S0) a).
      cbn [map snd walk]. rewrite E1, E2, E3, E4. unfold new_node; rewrite AL; cbn [rbind]. split; [reflexivity|].
      split; [eapply holds_perm; [|exact H3]; norm; perm|]. split; [apply nodes_is|]. split.
      + intros Z0. exists nd. split; [now left|]. split; [lia|]. left. now destruct S0.
      + rewrite nodes_length, rev_length. cbn [length]. lia.
    - cbn [addr].
      assert (P3 : 0 < p).
      { eapply holds_pos; [exact HH|]. norm. right. rewrite !in_app_iff. right; left. cbn [In]. eauto. }
      destruct (Z.eqb_spec p 0); [lia|]. apply hwp_bind. eapply hwp_node; [exact H2| |].
      { norm. right. right. rewrite !in_app_iff. right. left. reflexivity. }
      eapply hwp_store; [exact H2|norm; perm|]. intros h3 H3. apply hwp_ret.
      exists (rev K ++ (p, pn) :: (a2, Node (u16 off) (u16 (off + n)) (mf =? 0)) :: (a, nd) :: R), (nodes (rev S0) a).
      cbn [map snd walk]. rewrite E1, E2, E3, E4. unfold new_node; rewrite AL; cbn [rbind]. split.
      { cbn [rev]. now rewrite !map_app, !map_rev, <- !app_assoc. }
      split; [eapply holds_perm; [|exact H3]; norm; perm|]. split; [apply nodes_is|]. split.
      + intros Z0. exists nd. split; [now left|]. split; [lia|]. left. now destruct S0.
      + rewrite nodes_length, rev_length, app_length, rev_length. cbn [length]. lia. }
  apply hwp_ret. exists (rev K ++ rev S0 ++ (a, nd) :: R), []. cbn [map snd walk].
  rewrite E1, E2, E3, E4. split; [now rewrite !map_app, !map_rev|]. split; [exact HH|]. split; [constructor|].
  split; [easy|]. rewrite !app_length, !rev_length. cbn [length]. lia.
Qed.
End Walk.

Lemma walk_nonempty alloc off n mf m : forall rest, (length rest <= m)%nat -> forall kept skip l ok,
  walk alloc off n mf kept skip rest = Val (l, ok) ->
  (0 < length kept + length skip + length rest)%nat -> (0 < length l)%nat.
Proof.
  induction m as [|m IH]; intros rest LE kept skip l ok.
  - destruct rest; [|cbn in LE; lia]. cbn [walk]. intros [= <- <-]. rewrite app_length, !rev_length. cbn [length]. lia.
  - destruct rest as [|c tl]; cbn [walk length] in *.
    { intros [= <- <-]. rewrite app_length, !rev_length. lia. }
    destruct (_ =? _). { intros W _. eapply IH; [|exact W|cbn [length]; lia]. lia. }
    destruct (_ =? _). { intros [= <- <-] _. rewrite !app_length. cbn [length]. lia. }
    destruct (_ <? _).
    { destruct tl as [|c2 tl].
      - unfold new_node. destruct alloc; [|discriminate]. cbn [rbind]. intros [= <- <-] _. rewrite !app_length. cbn [length]. lia.
      - destruct (_ =? _); intros W _; (eapply IH; [|exact W|cbn [length]; lia]); cbn [length] in *; lia. }
    destruct (_ <? _).
    { unfold new_node. destruct alloc; [|discriminate]. cbn [rbind]. intros [= <- <-] _. rewrite !app_length. cbn [length]. lia. }
    intros [= <- <-] _. rewrite !app_length. cbn [length]. lia.
Qed.

(** ** Entries *)
Definition centry (pe : Z) (d : bytes) (t : Z) (l : list (Z * node)) : cells :=
  (pe, KEntry d t (addr l 0)) :: nodes l 0.

Lemma hreset_loop_spec nf pe t F fuel : forall l d h, (length l < fuel)%nat ->
  holds h (centry pe d t l ++ F) ->
  hwp nf (hreset_loop fuel pe) (fun _ h' => holds h' (centry pe (zeros HE_MAX_WIRE_MTU) 0 [] ++ F)) h.
Proof.
  induction fuel as [|fuel IH]; [lia|]. intros l d h LF HH. cbn [hreset_loop].
  apply hwp_bind. eapply hwp_entry; [exact HH|now left|].
  destruct l as [|[a nd] l].
  - cbn [addr Z.eqb]. eapply hwp_store; [exact HH|pick|]. intros h2 H2. exact H2.
  - cbn [addr]. assert (PA : 0 < a). { eapply holds_pos; [exact HH|]. right; left. reflexivity. }
    destruct (Z.eqb_spec a 0); [lia|]. apply hwp_bind. eapply hwp_node; [exact HH|right; left; reflexivity|].
    apply hwp_bind. eapply hwp_free; [exact HH|cbn [centry nodes app]; pick|]. intros h2 H2.
    apply hwp_bind. eapply hwp_store; [exact H2|cbn [app]; pick|]. intros h3 H3.
    apply (IH l d); [cbn [length] in LF; lia|exact H3].
Qed.
Lemma hreset_spec nf pe d t l F h :
  holds h (centry pe d t l ++ F) ->
  hwp nf (hreset pe) (fun _ h' => holds h' (centry pe (zeros HE_MAX_WIRE_MTU) 0 [] ++ F)) h.
Proof.
  intros HH. eapply hwp_loop; [exact HH|]. intros fuel LF. eapply hreset_loop_spec; [|exact HH].
  rewrite app_length in LF. cbn [centry length] in LF. rewrite nodes_length in LF. lia.
Qed.

(** The pattern in which the code loses ranges. *)
Definition losing (off n : Z) (l : list node) : Prop :=
  exists x y, In x l /\ In y l /\ n_end x = off /\ off + n < n_begin y.

Lemma hupdate_spec alloc pe d t l data off mf F h :
  len d = 1500 -> 0 <= off ->
  holds h (centry pe d t l ++ F) ->
  hwp (alloc = false) (hupdate alloc pe data off mf)
    (fun r h' => exists d' l' lost,
       entry_update alloc (Entry d t (map snd l)) data off mf = Val (fst r, snd r, Entry d' t (map snd l')) /\
       holds h' (centry pe d' t l' ++ lost ++ F) /\ Forall is_node lost /\ len d' = 1500 /\
       (lost <> [] -> losing off (len data) (map snd l)) /\
       (length l' + length lost <= length l + 1)%nat) h.
Proof.
  intros Ld Ho HH. unfold hupdate, entry_update.
  destruct (HE_MAX_WIRE_MTU <? off + len data) eqn:ETL.
  { apply hwp_ret. exists d, l, []. split; [reflexivity|]. split; [exact HH|]. split; [constructor|]. split; [exact Ld|].
    split; [easy|cbn; lia]. }
  unfold HE_MAX_WIRE_MTU in ETL.
  assert (exists d', stn d off data = Val d') as [d' Sd] by (eexists; apply stn_ok; lia).
  pose proof (stn_len _ _ _ Sd) as Ld'.
  apply hwp_bind. eapply hwp_entry; [exact HH|now left|]. cbn [fe_nodes fe_data fe_time].
  destruct l as [|[a nd] l].
  - cbn [addr Z.eqb map]. apply hwp_bind. eapply new_node_spec; [exact HH|]. intros a h2 AL PA H2.
    apply hwp_bind. eapply hwp_store; [exact H2|cbn [centry nodes app]; pick|]. intros h3 H3.
    rewrite Sd. apply hwp_bind, hwp_ret. apply hwp_bind. eapply hwp_store; [exact H3|cbn [app]; pick|].
    intros h4 H4. apply hwp_ret. unfold new_node. rewrite AL. cbn [rbind fst snd].
    exists d', [(a, Node (u16 off) (u16 (off + len data)) (mf =? 0))], [].
    split; [reflexivity|]. split; [exact H4|]. split; [constructor|]. split; [lia|]. split; [easy|cbn; lia].
  - cbn [addr]. assert (PA : 0 < a). { eapply holds_pos; [exact HH|]. right; left. reflexivity. }
    destruct (Z.eqb_spec a 0); [lia|]. cbn [map snd].
    apply hwp_bind. eapply hwp_loop; [exact HH|]. intros fuel LF.
    eapply hwp_mono; [apply (@hwalk_spec alloc pe off (len data) mf d t F fuel ((a, nd) :: l) [] [] h)|].
    + rewrite app_length in LF. cbn [centry length] in LF. rewrite nodes_length in LF. cbn [length] in *. lia.
    + exact HH.
    + intros ok h2 (l' & lost & W & H2 & N2 & B & C). change (map snd (@nil (Z * node))) with (@nil node) in W.
      cbn [map snd] in W. rewrite W. cbn [rbind].
      assert (LB : lost <> [] -> losing off (len data) (nd :: map snd l)).
      { intros Z0. destruct (B Z0) as (y & Iy & Ly & [[]|(x & Ix & Lx)]); [easy|]. now exists x, y. }
      assert (CB : (length l' + length lost <= length ((a, nd) :: l) + 1)%nat) by (cbn [length] in *; lia).
      destruct ok; cbn [negb].
      * apply hwp_bind. eapply hwp_entry; [exact H2|now left|]. rewrite Sd. apply hwp_bind, hwp_ret.
        apply hwp_bind. eapply hwp_store; [exact H2|pick|]. intros h3 H3.
        destruct l' as [|[a' nd'] l'].
        { exfalso. eapply walk_nonempty in W; [cbn in W; lia|apply le_n|cbn; lia]. }
        cbn [addr]. apply hwp_bind. eapply hwp_node; [exact H3|right; left; reflexivity|]. apply hwp_ret.
        cbn [map snd fst]. exists d', ((a', nd') :: l'), lost. cbn [rbind map snd]. split; [reflexivity|].
        split; [exact H3|]. split; [exact N2|]. split; [lia|]. split; [exact LB|exact CB].
      * apply hwp_ret. cbn [fst snd]. exists d, l', lost. split; [reflexivity|].
        split; [exact H2|]. split; [exact N2|]. split; [lia|]. split; [exact LB|exact CB].
Qed.

(** ** The table *)
Record ent := Ent { en_at : Z; en_d : bytes; en_t : Z; en_l : list (Z * node) }.
Definition ent_cells (e : ent) : cells := centry (en_at e) (en_d e) (en_t e) (en_l e).
Definition ent_entry (e : ent) : entry := Entry (en_d e) (en_t e) (map snd (en_l e)).
Definition slot_cells (o : option ent) : cells := match o with None => [] | Some e => ent_cells e end.
Definition slot_ptr (o : option ent) : Z := match o with None => 0 | Some e => en_at e end.
Definition slots_cells (sl : list (option ent)) : cells := flat_map slot_cells sl.
Definition ctable (t s : Z) (sl : list (option ent)) : cells :=
  (t, KTable (Z.of_nat (length sl)) s) :: (s, KSlots (map slot_ptr sl)) :: slots_cells sl.
Lemma slots_cells_app X Y : slots_cells (X ++ Y) = slots_cells X ++ slots_cells Y.
Proof. apply flat_map_app. Qed.
Lemma slots_cells_mid X o Y : slots_cells (X ++ o :: Y) = slots_cells X ++ slot_cells o ++ slots_cells Y.
Proof. now rewrite slots_cells_app. Qed.
Lemma map_mid X o Y : map slot_ptr (X ++ o :: Y) = map slot_ptr X ++ slot_ptr o :: map slot_ptr Y.
Proof. now rewrite map_app. Qed.
Lemma list_put_mid (X Y : list Z) i o v : Z.of_nat (length X) = i -> list_put (X ++ o :: Y) i v = X ++ v :: Y.
Proof.
  intros L. unfold list_put. replace (Z.to_nat i) with (length X) by lia.
  rewrite firstn_app_exact. f_equal. f_equal.
  replace (S (length X)) with (length (X ++ [o])) by (rewrite app_length; cbn; lia).
  change (o :: Y) with ([o] ++ Y). rewrite app_assoc. apply skipn_app_exact.
Qed.

(** The slots stand for a table of Frag.v. *)
Definition stands (sl : list (option ent)) (T : table) : Prop :=
  t_num T = Z.of_nat (length sl) /\
  forall i, 0 <= i < t_num T -> t_get T i = option_map ent_entry (nth (Z.to_nat i) sl None).
Lemma stands_set X o Y T o' :
  stands (X ++ o :: Y) T ->
  stands (X ++ o' :: Y) (t_set T (Z.of_nat (length X)) (option_map ent_entry o')).
Proof.
  intros [N G]. split; [cbn [t_set t_num]; rewrite N, !app_length; reflexivity|].
  cbn [t_set t_num t_get]. intros i Hi. destruct (Z.eqb_spec i (Z.of_nat (length X))) as [->|D].
  - rewrite Nat2Z.id, nth_middle. reflexivity.
  - rewrite (G i Hi). destruct (Z_lt_ge_dec i (Z.of_nat (length X))).
    + rewrite !app_nth1 by lia. reflexivity.
    + rewrite !app_nth2 by lia. replace (Z.to_nat i - length X)%nat with (S (Z.to_nat i - length X - 1)) by lia. reflexivity.
Qed.
Lemma stands_get X o Y T : stands (X ++ o :: Y) T -> t_get T (Z.of_nat (length X)) = option_map ent_entry o.
Proof.
  intros [N G]. rewrite G; [now rewrite Nat2Z.id, nth_middle|]. rewrite N, app_length; cbn; lia.
Qed.
Lemma stands_split sl T id : stands sl T -> 1 <= t_num T <= 65536 ->
  exists X o Y, sl = X ++ o :: Y /\ slot T id = Z.of_nat (length X).
Proof.
  intros [N G] R. unfold slot. set (i := u16 (id mod t_num T)).
  assert (0 <= i < t_num T).
  { unfold i, u16. pose proof (Z.mod_pos_bound id (t_num T)). rewrite Z.mod_small; lia. }
  destruct (nth_split sl None (n := Z.to_nat i)) as (X & Y & E & L); [lia|].
  exists X, (nth (Z.to_nat i) sl None), Y. split; [exact E|lia].
Qed.

Section Slots.
Variables (nf : Prop) (t s : Z) (X Y : list (option ent)) (o : option ent) (F : cells) (h : heap).
Hypothesis HH : holds h (ctable t s (X ++ o :: Y) ++ F).
Lemma hslot_spec (Q : Z -> heap -> Prop) : Q (slot_ptr o) h -> hwp nf (hslot s (Z.of_nat (length X))) Q h.
Proof.
  intros q. apply hwp_bind. eapply hwp_slots; [exact HH|right; left; reflexivity|].
  rewrite map_length, app_length. cbn [length].
  destruct (_ && _) eqn:E; [|lia]. apply hwp_ret.
  rewrite map_mid, Nat2Z.id. rewrite <- (map_length slot_ptr X), nth_middle. exact q.
Qed.
Lemma hslot_set_spec o' (Q : unit -> heap -> Prop) :
  (forall h', holds h' ((s, KSlots (map slot_ptr (X ++ o' :: Y))) :: (t, KTable (Z.of_nat (length (X ++ o :: Y))) s) :: slots_cells (X ++ o :: Y) ++ F) -> Q tt h') ->
  hwp nf (hslot_set s (Z.of_nat (length X)) (slot_ptr o')) Q h.
Proof.
  intros q. apply hwp_bind. eapply hwp_slots; [exact HH|right; left; reflexivity|].
  rewrite map_length, app_length. cbn [length].
  destruct (_ && _) eqn:E; [|lia]. rewrite map_mid, list_put_mid by now rewrite map_length.
  eapply hwp_store; [exact HH|cbn [ctable app]; pick|]. intros h' H'. apply q. rewrite map_mid. exact H'.
Qed.
End Slots.

Lemma hclear_entry_spec nf t s X e Y F h (Q : unit -> heap -> Prop) :
  holds h (ctable t s (X ++ Some e :: Y) ++ F) ->
  (forall h', holds h' (ctable t s (X ++ None :: Y) ++ F) -> Q tt h') ->
  hwp nf (hreset (en_at e) ;;! hfree (en_at e) ;;! hslot_set s (Z.of_nat (length X)) 0) Q h.
Proof.
  intros HH q. apply hwp_bind.
  eapply hwp_mono.
  { apply (@hreset_spec nf (en_at e) (en_d e) (en_t e) (en_l e) ((t, KTable (Z.of_nat (length (X ++ Some e :: Y))) s) :: (s, KSlots (map slot_ptr (X ++ Some e :: Y))) :: slots_cells X ++ slots_cells Y ++ F)).
    eapply holds_perm; [|exact HH]. unfold ctable. rewrite slots_cells_mid. cbn [slot_cells].
    unfold ent_cells.
    perm. }
  intros [] h2 H2. apply hwp_bind. eapply hwp_free; [exact H2|cbn [centry nodes app]; pick|]. intros h3 H3.
  change 0 with (slot_ptr None).
  unfold hslot_set. apply hwp_bind. eapply hwp_slots; [exact H3|right; left; reflexivity|].
  rewrite map_length, app_length. cbn [length].
  destruct (_ && _) eqn:E; [|lia]. rewrite map_mid, list_put_mid by now rewrite map_length.
  eapply hwp_store; [exact H3|pick|]. intros h' H'. apply q.
  eapply holds_perm; [|exact H']. unfold ctable. rewrite slots_cells_mid, map_mid. cbn [slot_cells].
  replace (length (X ++ None :: Y)) with (length (X ++ Some e :: Y)) by now rewrite !app_length.
  perm.
Qed.

Definition ents_ok (sl : list (option ent)) : Prop :=
  Forall (fun o => match o with None => True | Some e => entry_wf (ent_entry e) end) sl.
Lemma ents_ok_mid X o Y : ents_ok (X ++ o :: Y) <-> ents_ok X /\ match o with None => True | Some e => entry_wf (ent_entry e) end /\ ents_ok Y.
Proof. unfold ents_ok. rewrite Forall_app, Forall_cons_iff. tauto. Qed.
Lemma stands_wf sl T : stands sl T -> 1 <= t_num T <= 65536 -> ents_ok sl ->
  forall i e, 0 <= i < t_num T -> t_get T i = Some e -> entry_wf e.
Proof.
  intros [N G] R E i e Hi. rewrite G by easy. intros Z0. destruct (nth (Z.to_nat i) sl None) as [e'|] eqn:E'; [|discriminate].
  cbn in Z0. injection Z0 as <-. unfold ents_ok in E. rewrite Forall_forall in E. apply (E (Some e')). rewrite <- E'. apply nth_In. lia.
Qed.

(** the ranges a place holds *)
Definition place_nodes (T : table) (id : Z) : list node :=
  match t_get T (slot T id) with Some e => fe_nodes e | None => [] end.

Definition frag_post (a1 a2 : bool) (now1 now2 t s id off mf : Z) (data : bytes) (T : table) (F : cells) (num : nat)
    (r : Z * option bytes) (h' : heap) : Prop :=
  exists sl' T' lost,
    (if HE_MAX_WIRE_MTU <? off + len data then r = (HE_ERR_POINTER_WOULD_OVERFLOW, None) /\ T' = T
     else frag_store a1 a2 now1 now2 T id off mf data = Val (fst r, snd r, T')) /\
    stands sl' (match snd r with Some _ => table_delete T' id | None => T' end) /\ ents_ok sl' /\ length sl' = num /\
    holds h' (ctable t s sl' ++ lost ++ F) /\ Forall is_node lost /\
    (lost <> [] -> losing off (len data) (place_nodes T id) /\
        exists e, t_get T (slot T id) = Some e /\ now2 - fe_time e <= HE_FRAG_TTL).

Lemma ent_ok_new a now : entry_wf (ent_entry (Ent a (zeros HE_MAX_WIRE_MTU) now [])).
Proof. apply entry_wf_zeros. Qed.

Lemma walk_alloc alloc off n mf m : forall rest, (length rest <= m)%nat -> forall kept skip r,
  walk alloc off n mf kept skip rest = Val r -> walk true off n mf kept skip rest = Val r.
Proof.
  induction m as [|m IH]; intros rest LE kept skip r.
  - destruct rest; [|cbn in LE; lia]. exact (fun x => x).
  - destruct rest as [|c tl]; cbn [walk length] in *; [exact (fun x => x)|].
    destruct (_ =? _); [apply IH; lia|]. destruct (_ =? _); [exact (fun x => x)|].
    destruct (_ <? _).
    { destruct tl as [|c2 tl]; [destruct alloc; [exact (fun x => x)|discriminate]|].
      cbn [length] in LE. destruct (_ =? _); apply IH; cbn [length]; lia. }
    destruct (_ <? _); [destruct alloc; [exact (fun x => x)|discriminate]|exact (fun x => x)].
Qed.
Lemma entry_update_alloc alloc e data off mf r :
  entry_update alloc e data off mf = Val r -> entry_update true e data off mf = Val r.
Proof.
  unfold entry_update. destruct (_ <? _); [exact (fun x => x)|]. destruct (fe_nodes e) as [|c l].
  - destruct alloc; [exact (fun x => x)|discriminate].
  - destruct (walk alloc off (len data) mf [] [] (c :: l)) as [w|] eqn:W; [|discriminate].
    now rewrite (@walk_alloc alloc off (len data) mf _ _ (le_n _) [] [] w W).
Qed.

(** From the entry on (msg_handlers.c:476-501). *)
Lemma hfrag_tail_spec (a2 : bool) now2 t s X e Y T id off mf data F h :
  holds h (ctable t s (X ++ Some e :: Y) ++ F) ->
  stands (X ++ Some e :: Y) T -> ents_ok (X ++ Some e :: Y) -> slot T id = Z.of_nat (length X) ->
  1 <= t_num T <= 65536 -> 0 <= off -> off + len data <= 1500 ->
  hwp (a2 = false)
    (let!! (_, time, _) := load_entry (en_at e) in
     (if HE_FRAG_TTL <? now2 - time
      then hreset (en_at e) ;;! let!! (d, _, f) := load_entry (en_at e) in hstore (en_at e) (KEntry d now2 f)
      else hret tt) ;;!
     let!! (rc, asm) := hupdate a2 (en_at e) data off mf in
     if negb (rc =? HE_SUCCESS) then hret (rc, None)
     else if asm then
       let!! (d, _, f) := load_entry (en_at e) in
       let!! (_, fe, _, _) := load_node f in
       let!! p := hlift (ldn d 0 fe) in
       hdelete t id ;;!
       hret (rc, Some p)
     else hret (rc, None))
    (fun r h' => exists sl' T' lost,
       (do u <- entry_update a2 (if HE_FRAG_TTL <? now2 - en_t e then Entry (zeros HE_MAX_WIRE_MTU) now2 [] else ent_entry e) data off mf;
        let '(rc, asm, e') := u in
        let T1 := t_set T (slot T id) (Some e') in
        if negb (rc =? HE_SUCCESS) then Val (rc, None, T1)
        else if asm then match fe_nodes e' with h :: _ => do p <- ldn (fe_data e') 0 (n_end h); Val (rc, Some p, T1) | [] => Ub UB_null end
        else Val (rc, None, T1)) = Val (fst r, snd r, T') /\
       stands sl' (match snd r with Some _ => table_delete T' id | None => T' end) /\ ents_ok sl' /\
       length sl' = length (X ++ Some e :: Y) /\
       holds h' (ctable t s sl' ++ lost ++ F) /\ Forall is_node lost /\
       (lost <> [] -> losing off (len data) (map snd (en_l e)) /\ now2 - en_t e <= HE_FRAG_TTL)) h.
Proof.
  intros HH ST OK SL NT Ho On.
  set (R := (t, KTable (Z.of_nat (length (X ++ Some e :: Y))) s) :: (s, KSlots (map slot_ptr (X ++ Some e :: Y))) :: slots_cells X ++ slots_cells Y ++ F).
  assert (HC : holds h (centry (en_at e) (en_d e) (en_t e) (en_l e) ++ R)).
  { eapply holds_perm; [|exact HH]. unfold ctable, R. rewrite slots_cells_mid. cbn [slot_cells]. unfold ent_cells. perm. }
  apply hwp_bind. eapply hwp_entry; [exact HC|now left|]. apply hwp_bind.
  apply hwp_mono with (Q := fun _ h2 => exists d1 t1 l1, holds h2 (centry (en_at e) d1 t1 l1 ++ R) /\
     Entry d1 t1 (map snd l1) = (if HE_FRAG_TTL <? now2 - en_t e then Entry (zeros HE_MAX_WIRE_MTU) now2 [] else ent_entry e) /\
     (l1 = [] \/ l1 = en_l e /\ now2 - en_t e <= HE_FRAG_TTL)).
  { destruct (HE_FRAG_TTL <? now2 - en_t e) eqn:E.
    - apply hwp_bind. eapply hwp_mono; [apply hreset_spec with (1 := HC)|]. intros u h2 H2.
      apply hwp_bind. eapply hwp_entry; [exact H2|now left|]. eapply hwp_store; [exact H2|cbn [centry nodes app]; pick|].
      intros h3 H3. eexists _, now2, []. split; [exact H3|]. split; [reflexivity|now left].
    - apply hwp_ret. eexists _, _, _. split; [exact HC|]. split; [reflexivity|]. right. split; [reflexivity|lia]. }
  intros u h2 (d1 & t1 & l1 & H2 & E1 & L1). rewrite <- E1.
  assert (W1 : entry_wf (Entry d1 t1 (map snd l1))).
  { rewrite E1. destruct (HE_FRAG_TTL <? now2 - en_t e); [apply entry_wf_zeros|]. now apply ents_ok_mid in OK as (_ & K & _). }
  apply hwp_bind. eapply hwp_mono.
  { apply hupdate_spec with (3 := H2); [apply W1|exact Ho]. }
  intros [rc asm] h3 (d' & l' & lost & EU & H3 & N3 & Ld & B & _). cbn [fst snd] in EU. rewrite EU. cbn [rbind].
  assert (W2 : entry_wf (Entry d' t1 (map snd l')) /\ (asm = true -> map snd l' <> [])).
  { apply entry_update_alloc in EU. destruct (entry_update_total data mf W1 Ho) as (rc' & a' & e'' & EU' & WW & _ & WN & _).
    rewrite EU in EU'. injection EU' as <- <- <-. split; [exact WW|]. intros Z0. now apply WN. }
  destruct W2 as [W2 NE].
  set (e' := Ent (en_at e) d' t1 l').
  assert (OK' : ents_ok (X ++ Some e' :: Y)). { apply ents_ok_mid in OK. apply ents_ok_mid. split; [apply OK|]. split; [exact W2|apply OK]. }
  assert (ST' : stands (X ++ Some e' :: Y) (t_set T (slot T id) (Some (Entry d' t1 (map snd l'))))).
  { rewrite SL. apply (@stands_set X (Some e) Y T (Some e') ST). }
  assert (H3' : holds h3 (ctable t s (X ++ Some e' :: Y) ++ lost ++ F)).
  { eapply holds_perm; [|exact H3]. unfold ctable, R. rewrite slots_cells_mid, !map_mid. cbn [slot_cells slot_ptr e' en_at].
    unfold ent_cells. replace (length (X ++ Some e' :: Y)) with (length (X ++ Some e :: Y)) by now rewrite !app_length.
    cbn [en_at en_d en_t en_l e']. perm. }
  assert (LB : lost <> [] -> losing off (len data) (map snd (en_l e)) /\ now2 - en_t e <= HE_FRAG_TTL).
  { intros Z0. specialize (B Z0). destruct L1 as [->|[-> LE]]; [|split; [exact B|exact LE]].
    destruct B as (x & y & [] & _). }
  assert (LL : length (X ++ Some e' :: Y) = length (X ++ Some e :: Y)) by now rewrite !app_length.
  destruct (Z.eqb_spec rc HE_SUCCESS) as [RC|RC]; cbn [negb].
  2: { apply hwp_ret. cbn [fst snd]. exists (X ++ Some e' :: Y). eexists _, lost. split; [reflexivity|]. tauto. }
  destruct asm.
  2: { apply hwp_ret. cbn [fst snd]. exists (X ++ Some e' :: Y). eexists _, lost. split; [reflexivity|]. tauto. }
  apply hwp_bind. eapply hwp_entry; [exact H3|now left|]. cbn [fe_nodes fe_data].
  destruct l' as [|[a1 nd1] l'].
  { exfalso. now apply NE. }
  cbn [addr map snd]. apply hwp_bind. eapply hwp_node; [exact H3|right; left; reflexivity|].
  destruct W2 as [WL WN]. cbn [fe_data fe_nodes map snd] in WL, WN. inversion WN as [|x y [A1 A2] B1]; subst x y.
  rewrite ldn_ok by lia. cbn [hlift rbind]. apply hwp_bind, hwp_ret. apply hwp_bind.
  unfold hdelete.
  assert (PT : 0 < t) by (eapply holds_pos; [exact H3'|now left]).
  destruct (Z.eqb_spec t 0); [lia|]. apply hwp_bind. eapply hwp_table; [exact H3'|now left|].
  cbv zeta. replace (u16 (id mod Z.of_nat (length (X ++ Some e' :: Y)))) with (slot T id).
  2: { unfold slot. destruct ST as [-> _]. now rewrite LL. }
  rewrite SL. apply hwp_bind. eapply hslot_spec; [exact H3'|]. cbn [slot_ptr].
  assert (PE : 0 < en_at e') by (eapply holds_pos; [exact HC|now left]).
  destruct (Z.eqb_spec (en_at e') 0); [lia|].
  eapply hclear_entry_spec; [exact H3'|]. intros h4 H4. apply hwp_ret. cbn [fst snd].
  exists (X ++ None :: Y). eexists _, lost. split; [reflexivity|]. split.
  { unfold table_delete. rewrite slot_set, SL. rewrite SL in ST'.
    apply (@stands_set X (Some e') Y _ None ST'). }
  split. { apply ents_ok_mid in OK. apply ents_ok_mid. tauto. }
  split; [now rewrite !app_length|]. tauto.
Qed.

Lemma hfrag_spec (a1 a2 : bool) now1 now2 t s sl T id off mf data F h :
  holds h (ctable t s sl ++ F) -> stands sl T -> ents_ok sl -> 1 <= t_num T <= 65536 -> 0 <= off ->
  hwp (a2 = false) (hfrag a1 a2 now1 now2 t id off mf data)
    (frag_post a1 a2 now1 now2 t s id off mf data T F (length sl)) h.
Proof.
  intros HH ST OK NT Ho. unfold hfrag, frag_post.
  destruct (HE_MAX_WIRE_MTU <? off + len data) eqn:EL.
  { apply hwp_ret. exists sl, T, []. cbn [snd app]. split; [now split|]. do 4 (split; [assumption || reflexivity|]). split; [constructor|easy]. }
  assert (On : off + len data <= 1500) by (unfold HE_MAX_WIRE_MTU in EL; lia).
  destruct (@stands_split sl T id ST NT) as (X & o & Y & -> & SL).
  unfold hfind.
  assert (PT : 0 < t) by (eapply holds_pos; [exact HH|now left]).
  destruct (Z.eqb_spec t 0); [lia|].
  apply hwp_bind. apply hwp_bind. eapply hwp_table; [exact HH|now left|].
  cbv zeta. replace (u16 (id mod Z.of_nat (length (X ++ o :: Y)))) with (Z.of_nat (length X)).
  2: { rewrite <- SL. unfold slot. destruct ST as [-> _]. reflexivity. }
  pose proof (stands_get ST) as SG. rewrite <- SL in SG.
  apply hwp_bind. eapply hslot_spec; [exact HH|].
  assert (GO : forall (e : ent) (h2 : heap) (T1 : table), holds h2 (ctable t s (X ++ Some e :: Y) ++ F) ->
     stands (X ++ Some e :: Y) T1 -> entry_wf (ent_entry e) -> slot T1 id = slot T id -> t_num T1 = t_num T ->
     table_find a1 now1 T id = (Some (ent_entry e), T1) ->
     (en_l e <> [] -> t_get T (slot T id) = Some (ent_entry e)) ->
     hwp (a2 = false) (hret (en_at e)) (fun e0 h' => hwp (a2 = false)
       (if e0 =? 0 then hret (HE_ERR_NO_MEMORY, None) else
        let!! (_, time, _) := load_entry e0 in
        (if HE_FRAG_TTL <? now2 - time
         then hreset e0 ;;! let!! (d, _, f) := load_entry e0 in hstore e0 (KEntry d now2 f)
         else hret tt) ;;!
        let!! (rc, asm) := hupdate a2 e0 data off mf in
        if negb (rc =? HE_SUCCESS) then hret (rc, None)
        else if asm then
          let!! (d, _, f) := load_entry e0 in
          let!! (_, fe, _, _) := load_node f in
          let!! p := hlift (ldn d 0 fe) in
          hdelete t id ;;!
          hret (rc, Some p)
        else hret (rc, None))
       (fun r h' => exists sl' T' lost,
          frag_store a1 a2 now1 now2 T id off mf data = Val (fst r, snd r, T') /\
          stands sl' (match snd r with Some _ => table_delete T' id | None => T' end) /\ ents_ok sl' /\ length sl' = length (X ++ o :: Y) /\
          holds h' (ctable t s sl' ++ lost ++ F) /\ Forall is_node lost /\
          (lost <> [] -> losing off (len data) (place_nodes T id) /\
              exists e, t_get T (slot T id) = Some e /\ now2 - fe_time e <= HE_FRAG_TTL)) h') h2).
  { intros e h2 T1 H2 S1 W1 SS NN TF GG. apply hwp_ret.
    assert (PE : 0 < en_at e).
    { eapply holds_pos; [exact H2|]. unfold ctable. rewrite slots_cells_mid. cbn [app]. right; right.
      rewrite !in_app_iff. left; right; left. left. reflexivity. }
    destruct (Z.eqb_spec (en_at e) 0); [lia|].
    eapply hwp_mono; [apply (@hfrag_tail_spec a2 now2 t s X e Y T1 id off mf data F h2); auto|].
    - apply ents_ok_mid in OK. apply ents_ok_mid. tauto.
    - now rewrite SS.
    - now rewrite NN.
    - intros [rc pk] h3 (sl' & T' & lost & E & A & B & C & D & N & LO).
      exists sl', T', lost. split.
      { unfold frag_store. rewrite TF. cbn [fst snd] in E. exact E. }
      split; [exact A|]. split; [exact B|]. split; [rewrite C, !app_length; reflexivity|]. split; [exact D|].
      split; [exact N|]. intros Z0. destruct (LO Z0) as [L1 L2].
      assert (en_l e <> []) as NE. { intros Q. rewrite Q in L1. destruct L1 as (x & y & [] & _). }
      specialize (GG NE). unfold place_nodes. rewrite GG. split; [exact L1|]. now exists (ent_entry e). }
  destruct o as [e|].
  - cbn [slot_ptr option_map] in *.
    assert (PE : 0 < en_at e).
    { eapply holds_pos; [exact HH|]. unfold ctable. rewrite slots_cells_mid. cbn [app]. right; right.
      rewrite !in_app_iff. left; right; left. left. reflexivity. }
    destruct (Z.eqb_spec (en_at e) 0); [lia|].
    apply (GO e h T); auto.
    + now apply ents_ok_mid in OK as (_ & K & _).
    + unfold table_find. now rewrite SG.
  - cbn [slot_ptr option_map Z.eqb] in *. apply hwp_bind. eapply hwp_alloc; [exact HH| |].
    + intros ->. cbn [Z.eqb]. apply hwp_ret. cbn [Z.eqb]. apply hwp_ret. cbn [fst snd].
      exists (X ++ None :: Y), T, []. split; [unfold frag_store, table_find; now rewrite SG|].
      split; [exact ST|]. split; [exact OK|]. split; [reflexivity|]. split; [exact HH|]. split; [constructor|easy].
    + intros a h2 AL PA H2. destruct (Z.eqb_spec a 0); [lia|].
      apply hwp_bind. eapply hwp_store; [exact H2|pick|]. intros h3 H3.
      apply hwp_bind. set (e := Ent a (zeros HE_MAX_WIRE_MTU) now1 []). change (hslot_set s (Z.of_nat (length X)) a) with (hslot_set s (Z.of_nat (length X)) (slot_ptr (Some e))).
      unfold hslot_set. apply hwp_bind. eapply hwp_slots; [exact H3|right; right; left; reflexivity|].
      assert (E : (0 <=? Z.of_nat (length X)) && (Z.of_nat (length X) <? Z.of_nat (length (map slot_ptr (X ++ None :: Y)))) = true)
        by (rewrite map_length, app_length; cbn [length]; lia).
      rewrite E. rewrite map_mid, list_put_mid by now rewrite map_length.
      eapply hwp_store; [exact H3|cbn [ctable app]; pick|]. intros h4 H4.
      change (hret a) with (hret (en_at e)). change (slot_ptr (Some e)) with (en_at e).
      apply (GO e h4 (t_set T (slot T id) (Some (ent_entry e)))); auto.
      * eapply holds_perm; [|exact H4]. unfold ctable. rewrite !slots_cells_mid, map_mid. cbn [slot_cells].
        replace (length (X ++ Some e :: Y)) with (length (X ++ None :: Y)) by now rewrite !app_length.
        unfold ent_cells, centry. cbn [e en_at en_d en_t en_l addr nodes slot_ptr]. perm.
      * rewrite SL. apply (@stands_set X None Y T (Some e) ST).
      * apply ent_ok_new.
      * unfold table_find. now rewrite SG, AL.
      * intros []. reflexivity.
Qed.
