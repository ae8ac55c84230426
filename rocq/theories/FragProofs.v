(** Proofs about Frag.v: fragment lists and reassembly. *)
From Verif Require Import Base Codes Frag FragSpec.
Unset Strict Implicit.

Lemma u16_small x : 0 <= x < 65536 -> u16 x = x.
Proof. intros; unfold u16; apply Z.mod_small; lia. Qed.

(** ** The walk, with no allocation failure and in-range arguments *)

Definition nd_of off n mf := Node off (off + n) (mf =? 0).

Section Walk.
Variables (off n mf : Z).
Hypothesis (Ho : 0 <= off) (Hn : 0 <= n) (Hon : off + n <= 1500).

Lemma walk_Forall (Q : node -> Prop) :
  (forall c, Q c -> off = n_end c -> Q (Node (n_begin c) (off + n) (mf =? 0))) ->
  (forall c, Q c -> off + n = n_begin c -> Q (Node off (n_end c) (n_last c))) ->
  (forall c x, Q c -> Q x -> n_begin x = n_end c -> Q (Node (n_begin c) (n_begin x) (n_last x))) ->
  Q (nd_of off n mf) ->
  forall m rest, (length rest <= m)%nat -> forall kept skip l ok,
  Forall Q kept -> Forall Q skip -> Forall Q rest ->
  walk true off n mf kept skip rest = Val (l, ok) -> Forall Q l.
Proof.
  intros QE QP QC QN. induction m as [|m IH]; intros [|c tl] Hm kept skip l ok FK FS FR E;
    cbn [length] in Hm; try lia; cbn [walk] in E.
  1,2: injection E as <- <-; apply Forall_app; split; apply Forall_rev; auto.
  inversion FR as [|c' tl' Qc Ft]; subst.
  rewrite u16_small in E by lia.
  destruct (off =? n_end c) eqn:E1.
  { eapply (IH tl); [lia| | | |exact E]; auto. constructor; auto. apply QE; auto; lia. }
  destruct (off + n =? n_begin c) eqn:E2.
  { rewrite u16_small in E by lia. injection E as <- <-.
    rewrite !Forall_app; repeat split; try (apply Forall_rev; auto).
    constructor; auto. apply QP; auto; lia. }
  destruct (n_end c <? off) eqn:E3.
  { destruct tl as [|x tl'].
    - unfold new_node in E. rewrite !u16_small in E by lia. cbn [rbind] in E. injection E as <- <-.
      rewrite !Forall_app; repeat split; try (apply Forall_rev; auto).
      repeat constructor; auto.
    - inversion Ft as [|x' t' Qx Ft']; subst.
      destruct (n_begin x =? n_end c) eqn:E4.
      + eapply (IH tl'); [cbn [length] in Hm; lia| | | |exact E]; auto.
        constructor; [apply QC; auto; lia|]. apply Forall_app; auto.
      + eapply (IH (x :: tl')); [lia| | | |exact E]; auto.
        constructor; auto. apply Forall_app; auto. }
  destruct (off + n <? n_begin c) eqn:E5.
  { unfold new_node in E. rewrite !u16_small in E by lia. cbn [rbind] in E. injection E as <- <-.
    rewrite !Forall_app; repeat split; try (apply Forall_rev; auto).
    repeat constructor; auto. }
  injection E as <- <-. rewrite !Forall_app; repeat split; try (apply Forall_rev; auto). auto.
Qed.

Lemma walk_total m : forall rest, (length rest <= m)%nat -> forall kept skip,
  exists l ok, walk true off n mf kept skip rest = Val (l, ok).
Proof.
  induction m as [|m IH]; intros [|c tl] Hm kept skip; cbn [length] in Hm; try lia; cbn [walk].
  1,2: eauto.
  destruct (off =? n_end c); [apply IH; lia|].
  destruct (off + n =? n_begin c); [eauto|].
  destruct (n_end c <? off).
  { destruct tl as [|x tl']; [cbn; eauto|].
    destruct (n_begin x =? n_end c); apply IH; cbn [length] in *; lia. }
  destruct (off + n <? n_begin c); cbn; eauto.
Qed.

(** Never empties a list. *)
Lemma walk_nonempty m : forall rest, (length rest <= m)%nat -> forall kept skip l ok,
  kept ++ skip ++ rest <> [] ->
  walk true off n mf kept skip rest = Val (l, ok) -> l <> [].
Proof.
  induction m as [|m IH]; intros [|c tl] Hm kept skip l ok N E; cbn [length] in Hm; try lia;
    cbn [walk] in E.
  1,2: injection E as <- <-; intros F; apply app_eq_nil in F as [F1 F2];
       apply (f_equal (@length node)) in F1; apply (f_equal (@length node)) in F2;
       rewrite rev_length in F1, F2; destruct kept, skip; try discriminate; now apply N.
  destruct (off =? n_end c); [eapply (IH tl); [lia| |exact E]; intros F;
    apply app_eq_nil in F as [_ F]; discriminate|].
  destruct (off + n =? n_begin c).
  { injection E as <- <-. intros F; apply app_eq_nil in F as [_ F];
    apply app_eq_nil in F as [_ F]; discriminate. }
  destruct (n_end c <? off).
  { destruct tl as [|x tl'].
    - cbn in E. injection E as <- <-. intros F; apply app_eq_nil in F as [_ F];
      apply app_eq_nil in F as [_ F]; discriminate.
    - destruct (n_begin x =? n_end c).
      + eapply (IH tl'); [cbn [length] in *; lia| |exact E]. discriminate.
      + eapply (IH (x :: tl')); [cbn [length] in *; lia| |exact E]. discriminate. }
  destruct (off + n <? n_begin c).
  { cbn in E. injection E as <- <-. intros F; apply app_eq_nil in F as [_ F]; discriminate. }
  injection E as <- <-. intros F; apply app_eq_nil in F as [_ F];
    apply app_eq_nil in F as [_ F]; discriminate.
Qed.
End Walk.

(** ** C11: what an entry holds was received *)

Definition entry0 (t : Z) : entry := Entry (zeros 1500) t [].

(** Feeding fragments to an entry; stops at the first result that is not
    HE_SUCCESS or at the first assembled packet. *)
Inductive fed : entry -> list fragment -> entry -> Prop :=
| fed_nil e : fed e [] e
| fed_cons e f fs e1 e2 a :
    fed e fs e1 ->
    entry_update true e1 (f_data f) (f_off f) (f_mf f) = Val (HE_SUCCESS, a, e2) ->
    fed e (f :: fs) e2.
(** (newest fragment first) *)

Definition frag_ok (f : fragment) : Prop := 0 <= f_off f /\ f_off f + len (f_data f) <= 1500.

(** The newest fragment that carries [pos] gives the byte. *)
Fixpoint newest (fs : list fragment) (pos : Z) : option Z :=
  match fs with
  | [] => None
  | f :: fs =>
    if (f_off f <=? pos) && (pos <? f_off f + len (f_data f))
    then Some (nth (Z.to_nat (pos - f_off f)) (f_data f) 0) else newest fs pos
  end.

Lemma newest_carries fs pos b :
  newest fs pos = Some b -> exists f, In f fs /\ carries f pos b.
Proof.
  induction fs as [|f fs IH]; [discriminate|]. cbn [newest].
  destruct ((f_off f <=? pos) && (pos <? f_off f + len (f_data f))) eqn:E.
  - intros [= <-]. exists f; split; [now left|]. split; [lia|reflexivity].
  - intros H. destruct (IH H) as (g & I & C). exists g; split; [now right|auto].
Qed.

Lemma nth_skipn_ {A} k i (m : list A) d : nth i (skipn k m) d = nth (k + i) m d.
Proof.
  revert m; induction k as [|k IH]; intros [|x m]; cbn [skipn Nat.add nth]; auto.
  destruct i; reflexivity.
Qed.

Lemma nth_stn m off src m' pos :
  stn m off src = Val m' -> 0 <= pos < len m ->
  nth (Z.to_nat pos) m' 0 =
  if (off <=? pos) && (pos <? off + len src) then nth (Z.to_nat (pos - off)) src 0
  else nth (Z.to_nat pos) m 0.
Proof.
  unfold stn. destruct (_ && _) eqn:E; [|discriminate]. intros [= <-] Hp.
  assert (0 <= off /\ off + len src <= len m) as [A B] by lia.
  unfold len in *.
  destruct ((off <=? pos) && (pos <? off + Z.of_nat (length src))) eqn:Q.
  - rewrite app_nth2; rewrite firstn_length; [|lia].
    rewrite app_nth1; [f_equal; lia|]. lia.
  - destruct (Z.ltb_spec pos off).
    + rewrite app_nth1 by (rewrite firstn_length; lia).
      rewrite <- (firstn_skipn (Z.to_nat off) m) at 2.
      rewrite app_nth1 by (rewrite firstn_length; lia). reflexivity.
    + rewrite app_nth2; rewrite firstn_length; [|lia].
      rewrite app_nth2; [|lia].
      rewrite nth_skipn_. f_equal; lia.
Qed.

Definition covered (fs : list fragment) (nd : node) : Prop :=
  0 <= n_begin nd /\ 0 <= n_end nd <= 1500 /\
  forall pos, n_begin nd <= pos < n_end nd -> newest fs pos <> None.

Definition data_inv (fs : list fragment) (d : bytes) : Prop :=
  len d = 1500 /\
  forall pos, 0 <= pos < 1500 ->
  nth (Z.to_nat pos) d 0 = match newest fs pos with Some b => b | None => 0 end.

Definition entry_inv (fs : list fragment) (e : entry) : Prop :=
  data_inv fs (fe_data e) /\ Forall (covered fs) (fe_nodes e).

Lemma data_inv_stn fs d f d' :
  data_inv fs d -> stn d (f_off f) (f_data f) = Val d' -> data_inv (f :: fs) d'.
Proof.
  intros [L D] E. split; [now rewrite (stn_len _ _ _ E)|].
  intros pos Hp. rewrite (nth_stn E) by lia. cbn [newest].
  destruct (_ && _); auto.
Qed.

Lemma covered_weaken fs f nd : covered fs nd -> covered (f :: fs) nd.
Proof.
  intros (A & B & C). split; [auto|]. split; [auto|]. intros pos Hp. cbn [newest].
  destruct (_ && _); [discriminate|auto].
Qed.

Lemma newest_here fs f pos :
  f_off f <= pos < f_off f + len (f_data f) -> newest (f :: fs) pos <> None.
Proof.
  intros H; cbn [newest]. destruct (_ && _) eqn:E; [discriminate|lia].
Qed.

Lemma update_inv fs e f rc a e' :
  frag_ok f -> entry_inv fs e ->
  entry_update true e (f_data f) (f_off f) (f_mf f) = Val (rc, a, e') -> rc = HE_SUCCESS ->
  entry_inv (f :: fs) e'.
Proof.
  intros [F1 F2] [D C] E ->. pose proof (len_nonneg (f_data f)) as Hn.
  unfold entry_update in E. change HE_MAX_WIRE_MTU with 1500 in E.
  destruct (1500 <? _) eqn:E0; [discriminate|].
  assert (covered (f :: fs) (nd_of (f_off f) (len (f_data f)) (f_mf f))) as CN.
  { repeat split; cbn [nd_of n_begin n_end]; try lia. intros; apply newest_here; lia. }
  destruct (fe_nodes e) as [|h t] eqn:En.
  - unfold new_node in E. cbn [rbind] in E. rewrite !u16_small in E by lia.
    destruct (stn _ _ _) as [d|] eqn:Es; [|discriminate]. cbn [rbind] in E.
    injection E as <- <-. split; cbn [fe_data fe_nodes]; [eapply data_inv_stn; eauto|].
    constructor; auto.
  - destruct (walk _ _ _ _ _ _ _) as [[l ok]|] eqn:Ew; [|discriminate]. cbn [rbind] in E.
    destruct ok; [|discriminate].
    destruct (stn _ _ _) as [d|] eqn:Es; [|discriminate]. cbn [rbind] in E.
    destruct l as [|h' l']; [discriminate|]. injection E as <- <-.
    split; cbn [fe_data fe_nodes]; [eapply data_inv_stn; eauto|].
    assert (0 <= len (f_data f)) as Hn' by lia.
    eapply (@walk_Forall _ _ (f_mf f) F1 Hn' F2 (covered (f :: fs)));
      [| | |exact CN|apply le_n|constructor|constructor| |exact Ew].
    + intros c (A & B & Cv) Eq. repeat split; cbn [n_begin n_end]; try lia.
      intros pos Hp. destruct (Z.ltb_spec pos (n_end c)); [apply Cv; lia|].
      apply newest_here; lia.
    + intros c (A & B & Cv) Eq. repeat split; cbn [n_begin n_end]; try lia.
      intros pos Hp. destruct (Z.ltb_spec pos (n_begin c)); [apply newest_here; lia|].
      apply Cv; lia.
    + intros c x (A & B & Cv) (A' & B' & Cv') Eq. repeat split; cbn [n_begin n_end]; try lia.
      intros pos Hp. apply Cv; lia.
    + eapply Forall_impl; [|exact C]. intros; now apply covered_weaken.
Qed.

Lemma fed_inv t fs e : Forall frag_ok fs -> fed (entry0 t) fs e -> entry_inv fs e.
Proof.
  intros F H. remember (entry0 t) as e0 eqn:E0. induction H as [e|e f fs e1 e2 a H IH U].
  - subst. split; [|constructor]. split; [apply len_zeros; lia|].
    intros pos Hp. cbn [newest fe_data entry0]. unfold zeros. apply nth_repeat.
  - inversion F; subst. eapply update_inv; eauto.
Qed.

(** When an update reports an assembled packet, its head starts at 0. *)
Lemma update_assembled e f rc e' al :
  entry_update al e (f_data f) (f_off f) (f_mf f) = Val (rc, true, e') ->
  rc = HE_SUCCESS /\ exists h t, fe_nodes e' = h :: t /\ n_begin h = 0 /\ n_last h = true.
Proof.
  unfold entry_update. change HE_MAX_WIRE_MTU with 1500.
  destruct (1500 <? _); [discriminate|].
  destruct (fe_nodes e) as [|h t].
  - unfold new_node. destruct al; [|discriminate]. cbn [rbind].
    destruct (stn _ _ _); discriminate.
  - destruct (walk _ _ _ _ _ _ _) as [[l ok]|]; [|discriminate]. cbn [rbind].
    destruct ok; [|discriminate].
    destruct (stn _ _ _) as [d|]; [|discriminate]. cbn [rbind].
    destruct l as [|h' l']; [discriminate|]. intros [= <- A <-].
    split; auto. exists h', l'. cbn [fe_nodes].
    destruct (n_last h'); [|discriminate]. repeat split; auto. cbn in A. lia.
Qed.

(** Nothing is invented as long as every update so far succeeded. *)
Lemma reassembled_received t fs f e e' rc :
  Forall frag_ok fs -> frag_ok f -> fed (entry0 t) fs e ->
  entry_update true e (f_data f) (f_off f) (f_mf f) = Val (rc, true, e') ->
  exists h tl, fe_nodes e' = h :: tl /\ n_end h <= 1500 /\
  forall pos, 0 <= pos < n_end h ->
    newest (f :: fs) pos = Some (nth (Z.to_nat pos) (fe_data e') 0).
Proof.
  intros Hfs Hf H E. pose proof (fed_inv Hfs H) as I.
  destruct (update_assembled E) as (-> & h & tl & En & B0 & _).
  destruct (update_inv Hf I E eq_refl) as [[L D] C].
  exists h, tl. rewrite En in C. inversion C as [|h' tl' (C1 & C2 & C3) Ct]; subst.
  split; [auto|]. split; [lia|]. intros pos Hp.
  rewrite D by lia. specialize (C3 pos ltac:(lia)).
  destruct (newest (f :: fs) pos); [reflexivity|congruence].
Qed.

(** Whatever happens (also after BAD_FRAGMENT), every byte of the buffer is
    either a received byte of that position or zero, and the ranges stay in
    the buffer. *)
Inductive fed_any : entry -> list fragment -> entry -> Prop :=
| fed_any_nil e : fed_any e [] e
| fed_any_cons e f fs e1 e2 rc a :
    fed_any e fs e1 ->
    entry_update true e1 (f_data f) (f_off f) (f_mf f) = Val (rc, a, e2) ->
    fed_any e (f :: fs) e2.

Definition node_in (nd : node) : Prop := 0 <= n_begin nd /\ 0 <= n_end nd <= 1500.
Definition entry_wf (e : entry) : Prop := len (fe_data e) = 1500 /\ Forall node_in (fe_nodes e).

Lemma walk_node_in off n mf rest l ok :
  0 <= off -> 0 <= n -> off + n <= 1500 -> Forall node_in rest ->
  walk true off n mf [] [] rest = Val (l, ok) -> Forall node_in l.
Proof.
  intros F1 F2 F3 C Ew.
  eapply (@walk_Forall _ _ mf F1 F2 F3 node_in);
      [| | | |apply le_n|constructor|constructor|exact C|exact Ew];
  unfold node_in, nd_of; cbn [n_begin n_end]; intros; lia.
Qed.

(** Memory safety of an update (allocations succeeding), and what it keeps. *)
Lemma entry_update_total e data off mf :
  entry_wf e -> 0 <= off ->
  exists rc a e', entry_update true e data off mf = Val (rc, a, e') /\
    entry_wf e' /\ fe_time e' = fe_time e /\
    (a = true -> rc = HE_SUCCESS /\ fe_nodes e' <> []) /\
    (bytes_ok data -> bytes_ok (fe_data e) -> bytes_ok (fe_data e')).
Proof.
  intros [L N] Ho. pose proof (len_nonneg data) as Hn.
  unfold entry_update. change HE_MAX_WIRE_MTU with 1500.
  destruct (1500 <? off + len data) eqn:E0.
  { eexists _, _, _; split; [reflexivity|]. repeat split; auto; discriminate. }
  assert (stn (fe_data e) off data = Val (firstn (Z.to_nat off) (fe_data e) ++ data ++
            skipn (Z.to_nat (off + len data)) (fe_data e))) as Es by (apply stn_ok; lia).
  destruct (fe_nodes e) as [|h t] eqn:En.
  - unfold new_node. cbn [rbind]. rewrite Es. cbn [rbind].
    eexists _, _, _; split; [reflexivity|]. rewrite !u16_small by lia.
    split; [split; cbn [fe_data fe_nodes]; [now rewrite (stn_len _ _ _ Es)|]|].
    + constructor; auto. split; cbn [n_begin n_end]; lia.
    + split; [reflexivity|]. split; [discriminate|]. intros. eapply stn_bytes_ok; eauto.
  - destruct (walk_total off (len data) mf (le_n (length (h :: t))) [] []) as (l & ok & Ew).
    rewrite Ew. cbn [rbind].
    pose proof (walk_node_in Ho Hn ltac:(lia) N Ew) as NI.
    destruct ok.
    + rewrite Es. cbn [rbind]. destruct l as [|h' l'].
      { exfalso. eapply walk_nonempty; [apply le_n| |exact Ew|reflexivity]. discriminate. }
      eexists _, _, _; split; [reflexivity|].
      split; [split; cbn [fe_data fe_nodes]; [now rewrite (stn_len _ _ _ Es)|exact NI]|].
      split; [reflexivity|]. split; [split; [reflexivity|discriminate]|].
      intros. eapply stn_bytes_ok; eauto.
    + eexists _, _, _; split; [reflexivity|].
      split; [split; cbn [fe_data fe_nodes]; auto|].
      split; [reflexivity|]. split; [discriminate|]. auto.
Qed.

Definition received_or_zero (fs : list fragment) (d : bytes) : Prop :=
  forall pos, 0 <= pos < 1500 ->
  nth (Z.to_nat pos) d 0 = 0 \/ exists f, In f fs /\ carries f pos (nth (Z.to_nat pos) d 0).

Lemma fed_any_inv t fs e :
  Forall (fun f => 0 <= f_off f) fs -> fed_any (entry0 t) fs e ->
  entry_wf e /\ received_or_zero fs (fe_data e).
Proof.
  intros F H. remember (entry0 t) as e0 eqn:E0. induction H as [e|e f fs e1 e2 rc a H IH U].
  - subst. split; [split; [apply len_zeros; lia|constructor]|].
    intros pos Hp. left. cbn [fe_data entry0]. unfold zeros. apply nth_repeat.
  - inversion F as [|f' fs' Ho Ft]; subst. destruct (IH Ft eq_refl) as [W R].
    destruct (entry_update_total (e := e1) (f_data f) (f_mf f) W Ho) as (rc' & a' & e' & E & W' & _).
    rewrite U in E. injection E as <- <- <-. split; auto.
    assert (fe_data e2 = fe_data e1 \/ stn (fe_data e1) (f_off f) (f_data f) = Val (fe_data e2)) as D.
    { clear -U. unfold entry_update in U. destruct (_ <? _); [left; congruence|].
      destruct (fe_nodes e1).
      - cbn [new_node rbind] in U. destruct (stn _ _ _); [|discriminate]. right.
        cbn [rbind] in U. injection U as <- <- <-. reflexivity.
      - destruct (walk _ _ _ _ _ _ _) as [[l' ok]|]; [|discriminate]. cbn [rbind] in U.
        destruct ok; [|left; injection U as <- <- <-; reflexivity].
        destruct (stn _ _ _); [|discriminate]. cbn [rbind] in U.
        destruct l'; [discriminate|]. right. injection U as <- <- <-. reflexivity. }
    intros pos Hp. destruct D as [->|D].
    + destruct (R pos Hp) as [Z|(g & I & C)]; [auto|right; exists g; split; [now right|auto]].
    + rewrite (nth_stn D) by (destruct W; lia).
      destruct (_ && _) eqn:Q.
      * right. exists f. split; [now left|]. split; [lia|reflexivity].
      * destruct (R pos Hp) as [Z|(g & I & C)]; [auto|right; exists g; split; [now right|auto]].
Qed.
