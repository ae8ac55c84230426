(** The life of a client on the heap: everything it owns, from creation to
    destruction. *)
From Coq Require Import Permutation.
From Verif Require Import Base Codes Frag FragSpec FragProofs ReasmProofs ReasmTable Heap HeapSpec HeapProofs.
Unset Strict Implicit.
Local Open Scope heap_scope.

(** ** What waits at the places *)
Definition marked (l : list (Z * Z)) (nd : node) : Prop :=
  (exists x, In x l /\ fst x = n_begin nd) /\ (exists x, In x l /\ snd x = n_end nd).
Definition tracked (o : option entry) (w : option (Z * list (Z * Z))) : Prop :=
  match o with
  | None => w = None
  | Some e => exists l, w = Some (fe_time e, l) /\ Forall (marked l) (fe_nodes e)
  end.
Definition tracks (T : table) (w : waiting) : Prop :=
  forall i, 0 <= i < t_num T -> tracked (t_get T i) (w i).

Lemma marked_more x l nd : marked l nd -> marked (x :: l) nd.
Proof. intros [(y & I & E) (z & J & G)]. split; [exists y|exists z]; cbn; auto. Qed.

Lemma entry_update_marked alloc e data off mf rc asm e' l :
  0 <= off -> off + len data <= 1500 ->
  entry_update alloc e data off mf = Val (rc, asm, e') -> Forall (marked l) (fe_nodes e) ->
  Forall (marked ((off, off + len data) :: l)) (fe_nodes e') /\ fe_time e' = fe_time e /\
  (rc = HE_SUCCESS \/ rc = HE_ERR_BAD_FRAGMENT).
Proof.
  intros Ho On EU M. apply entry_update_alloc in EU. unfold entry_update in EU.
  pose proof (len_nonneg data) as Hn. change HE_MAX_WIRE_MTU with 1500 in EU.
  destruct (1500 <? off + len data) eqn:E0; [lia|].
  assert (NEW : marked ((off, off + len data) :: l) (nd_of off (len data) mf)).
  { split; exists (off, off + len data); cbn; auto. }
  destruct (fe_nodes e) as [|c tl] eqn:En.
  - unfold new_node in EU. cbn [rbind] in EU. destruct (stn (fe_data e) off data); [|discriminate]. cbn [rbind] in EU.
    rewrite !u16_small in EU by lia. injection EU as <- <- <-. cbn [fe_nodes fe_time]. split; [|auto].
    constructor; [exact NEW|constructor].
  - destruct (walk true off (len data) mf [] [] (c :: tl)) as [[ns ok]|] eqn:W; [|discriminate]. cbn [rbind] in EU.
    assert (M' : Forall (marked ((off, off + len data) :: l)) ns).
    { eapply (@walk_Forall _ _ mf Ho Hn On (marked ((off, off + len data) :: l)));
        [| | |exact NEW|apply le_n|constructor|constructor| |exact W].
      - intros x [A B] E. split; [exact A|]. exists (off, off + len data). cbn; auto.
      - intros x [A B] E. split; [|exact B]. exists (off, off + len data). cbn; auto.
      - intros x y [A B] [A' B'] E. split; [exact A|]. destruct B as (z & I & G). exists z. split; [exact I|].
        cbn [n_end]. lia.
      - eapply Forall_impl; [|exact M]. intros; now apply marked_more. }
    destruct ok.
    + destruct (stn (fe_data e) off data); [|discriminate]. cbn [rbind] in EU. destruct ns as [|n0 ns]; [discriminate|].
      injection EU as <- <- <-. cbn [fe_nodes fe_time]. auto.
    + injection EU as <- <- <-. cbn [fe_nodes fe_time]. auto.
Qed.

Lemma slot_place T id : 1 <= t_num T <= 65536 -> slot T id = id mod t_num T /\ 0 <= slot T id < t_num T.
Proof.
  intros R. unfold slot, u16. pose proof (Z.mod_pos_bound id (t_num T)). rewrite Z.mod_small by lia. lia.
Qed.

Lemma tracks_frag a1 a2 now1 now2 T id off mf data rc pk T' w :
  1 <= t_num T <= 65536 -> 0 <= off -> off + len data <= 1500 ->
  frag_store a1 a2 now1 now2 T id off mf data = Val (rc, pk, T') -> tracks T w ->
  tracks (match pk with Some _ => table_delete T' id | None => T' end)
         (arrive (t_num T) w (MFrag a1 a2 now1 now2 id off mf data) (rc, pk)) /\ t_num T' = t_num T.
Proof.
  intros R Ho On FS TR. destruct (slot_place id R) as [SP SR].
  unfold frag_store in FS.
  destruct (table_find a1 now1 T id) as [[e0|] T1] eqn:TF.
  2: { injection FS as <- <- <-. unfold table_find in TF. destruct (t_get T (slot T id)); [discriminate|].
       destruct a1; [discriminate|]. injection TF as <-. unfold arrive. cbn [fst snd]. rewrite Z.eqb_refl, Bool.orb_true_r. auto. }
  assert (F1 : t_num T1 = t_num T /\ (forall i, i <> slot T id -> t_get T1 i = t_get T i) /\
               exists l0, Forall (marked l0) (fe_nodes e0) /\
                 (since w (slot T id) now1 now2 = if 64 <? now2 - fe_time e0 then now2 else fe_time e0) /\
                 live w (slot T id) now2 = if 64 <? now2 - fe_time e0 then [] else l0).
  { unfold table_find in TF. pose proof (TR _ SR) as K. unfold tracked in K.
    destruct (t_get T (slot T id)) as [e|].
    - injection TF as <- <-. split; [reflexivity|]. split; [auto|]. destruct K as (l & Kw & Km).
      exists l. split; [exact Km|]. unfold since, live. rewrite Kw. auto.
    - destruct a1; [|discriminate]. injection TF as <- <-. split; [reflexivity|]. split.
      { intros i Hi. cbn [t_set t_get]. destruct (Z.eqb_spec i (slot T id)); congruence. }
      exists []. split; [constructor|]. unfold since, live. rewrite K. cbn [fe_time]. split; [reflexivity|].
      now destruct (64 <? now2 - now1). }
  destruct F1 as (N1 & G1 & l0 & M0 & SI & LI).
  change HE_FRAG_TTL with 64 in FS. cbv zeta in FS.
  set (e1 := if 64 <? now2 - fe_time e0 then _ else e0) in FS.
  destruct (entry_update a2 e1 data off mf) as [[[rc0 asm] e2]|] eqn:EU; [|discriminate]. cbn [rbind] in FS.
  assert (M1 : Forall (marked (live w (slot T id) now2)) (fe_nodes e1)).
  { rewrite LI. unfold e1. destruct (64 <? _); [constructor|exact M0]. }
  assert (T1E : fe_time e1 = since w (slot T id) now1 now2).
  { rewrite SI. unfold e1. now destruct (64 <? _). }
  destruct (entry_update_marked Ho On EU M1) as (M2 & TM & RC).
  assert (S1 : slot T1 id = slot T id) by now apply slot_num.
  rewrite S1 in FS.
  assert (FIN : exists pk0, rc = rc0 /\ pk = pk0 /\ T' = t_set T1 (slot T id) (Some e2)).
  { exists pk. destruct (rc0 =? HE_SUCCESS); cbn [negb] in FS.
    - destruct asm.
      + destruct (fe_nodes e2) as [|n0 ns]; [discriminate|]. destruct (ldn (fe_data e2) 0 (n_end n0)); [|discriminate].
        cbn [rbind] in FS. now injection FS as <- <- <-.
      + now injection FS as <- <- <-.
    - now injection FS as <- <- <-. }
  destruct FIN as (_ & -> & _ & ->).
  split; [|exact N1].
  unfold arrive. cbn [fst snd]. 
  replace ((rc0 =? HE_ERR_POINTER_WOULD_OVERFLOW) || (rc0 =? HE_ERR_NO_MEMORY)) with false
    by (destruct RC as [-> | ->]; reflexivity).
  assert (TG : forall i, t_get (match pk with Some _ => table_delete (t_set T1 (slot T id) (Some e2)) id | None => t_set T1 (slot T id) (Some e2) end) i =
     (if i =? slot T id then match pk with Some _ => None | None => Some e2 end else t_get T i)).
  { intros i. destruct pk; unfold table_delete; cbn [t_set t_get]; rewrite ?slot_set, ?S1;
      destruct (Z.eqb_spec i (slot T id)); auto. }
  assert (TN : t_num (match pk with Some _ => table_delete (t_set T1 (slot T id) (Some e2)) id | None => t_set T1 (slot T id) (Some e2) end) = t_num T).
  { destruct pk; exact N1. }
  intros i Hi. rewrite TN in Hi. rewrite TG, <- SP.
  destruct (Z.eqb_spec i (slot T id)) as [->|]; [|now apply TR].
  destruct pk; [reflexivity|]. cbn [tracked]. eexists. split; [rewrite <- T1E, <- TM; reflexivity|]. exact M2.
Qed.

Lemma losing_strays a1 a2 now1 now2 T id off mf data w :
  1 <= t_num T <= 65536 -> tracks T w ->
  losing off (len data) (place_nodes T id) ->
  (exists e, t_get T (slot T id) = Some e /\ now2 - fe_time e <= HE_FRAG_TTL) ->
  strays (t_num T) w (MFrag a1 a2 now1 now2 id off mf data).
Proof.
  intros R TR (x & y & Ix & Iy & Ex & Ey) (e & G & LE). destruct (slot_place id R) as [SP SR].
  pose proof (TR _ SR) as K. unfold place_nodes in *. rewrite G in *. destruct K as (l & Kw & Km).
  rewrite Forall_forall in Km. destruct (Km _ Ix) as [_ (p & Ip & Ep)]. destruct (Km _ Iy) as [(q & Iq & Eq) _].
  cbn [strays]. rewrite <- SP. unfold live. rewrite Kw. change HE_FRAG_TTL with 64 in LE.
  replace (64 <? now2 - fe_time e) with false by lia. exists p, q. repeat split; auto; lia.
Qed.

(** ** Creation and destruction *)
Lemma htable_create_spec nf a1 a2 num L h : 0 <= num <= 65536 ->
  holds h L ->
  hwp nf (htable_create a1 a2 num)
    (fun t h' => (t = 0 /\ holds h' L /\ a1 && a2 = false) \/
                 (0 < t /\ a1 && a2 = true /\ exists s, holds h' (ctable t s (repeat None (Z.to_nat (table_size num))) ++ L))) h.
Proof.
  intros R HH. apply hwp_bind. eapply hwp_alloc; [exact HH| |].
  { intros ->. cbn [Z.eqb]. apply hwp_ret. left. auto. }
  intros t h2 -> PT H2. destruct (Z.eqb_spec t 0); [lia|]. cbv zeta.
  change (if num =? 0 then MAX_FRAGMENT_ENTRIES else num) with (table_size num).
  apply hwp_bind. eapply hwp_alloc; [exact H2| |].
  { intros ->. cbn [Z.eqb]. apply hwp_bind. eapply hwp_free; [exact H2|pick|]. intros h3 H3. apply hwp_ret. left. auto. }
  intros s h3 -> PS H3. destruct (Z.eqb_spec s 0); [lia|].
  apply hwp_bind. eapply hwp_store; [exact H3|pick|]. intros h4 H4. apply hwp_ret. right.
  split; [exact PT|]. split; [reflexivity|]. exists s. eapply holds_perm; [|exact H4]. unfold ctable.
  replace (Z.of_nat (length (repeat (@None ent) (Z.to_nat (table_size num))))) with (table_size num).
  2: { rewrite repeat_length. unfold table_size. destruct (num =? 0); lia. }
  replace (map slot_ptr (repeat None (Z.to_nat (table_size num)))) with (zeros (table_size num)).
  2: { unfold zeros. induction (Z.to_nat (table_size num)) as [|k IH]; cbn; congruence. }
  replace (slots_cells (repeat None (Z.to_nat (table_size num)))) with (@nil (Z * cell)).
  2: { induction (Z.to_nat (table_size num)) as [|k IH]; cbn; auto. }
  perm.
Qed.

Lemma hclear_spec nf t s F Y : forall X h, holds h (ctable t s (X ++ Y) ++ F) -> Forall (eq None) X ->
  hwp nf (hclear s (length Y) (Z.of_nat (length X)))
    (fun _ h' => exists sl, Forall (eq None) sl /\ holds h' (ctable t s sl ++ F)) h.
Proof.
  induction Y as [|o Y IH]; intros X h HH FX; cbn [length hclear].
  - apply hwp_ret. rewrite app_nil_r in HH. eauto.
  - apply hwp_bind. eapply hslot_spec; [exact HH|]. apply hwp_bind.
    assert (NX : forall h', holds h' (ctable t s (X ++ None :: Y) ++ F) ->
      hwp nf (hclear s (length Y) (Z.of_nat (length X) + 1)) (fun _ h' => exists sl, Forall (eq None) sl /\ holds h' (ctable t s sl ++ F)) h').
    { intros h' H'. replace (Z.of_nat (length X) + 1) with (Z.of_nat (length (X ++ [None]))) by (rewrite app_length; cbn; lia).
      apply IH; [now rewrite <- app_assoc|]. apply Forall_app. split; [exact FX|repeat constructor]. }
    destruct o as [e|]; cbn [slot_ptr].
    + assert (PE : 0 < en_at e).
      { eapply holds_pos; [exact HH|]. unfold ctable. rewrite slots_cells_mid. cbn [app]. right; right.
        rewrite !in_app_iff. left; right; left. left. reflexivity. }
      destruct (Z.eqb_spec (en_at e) 0); [lia|]. eapply hclear_entry_spec; [exact HH|exact NX].
    + cbn [Z.eqb]. apply hwp_ret. now apply NX.
Qed.

(** A pointer to a table, or NULL *)
Definition tab : Type := option (Z * Z * list (option ent)).
Definition tptr (t : tab) : Z := match t with Some (a, _, _) => a | None => 0 end.
Definition tcells (t : tab) : cells := match t with Some (a, s, sl) => ctable a s sl | None => [] end.

Lemma slots_none sl : Forall (eq None) sl -> slots_cells sl = [].
Proof. induction 1; cbn; auto. now subst. Qed.
Lemma htable_destroy_spec nf t F h : holds h (tcells t ++ F) ->
  hwp nf (htable_destroy (tptr t)) (fun _ h' => holds h' F) h.
Proof.
  destruct t as [[[a s] sl]|]; cbn [tptr tcells]; [|intros HH; exact HH].
  intros HH. unfold htable_destroy. assert (PT : 0 < a) by (eapply holds_pos; [exact HH|now left]).
  destruct (Z.eqb_spec a 0); [lia|]. apply hwp_bind. eapply hwp_table; [exact HH|now left|].
  rewrite Nat2Z.id. apply hwp_bind. eapply hwp_mono; [apply (@hclear_spec nf a s F sl [] h HH (Forall_nil _))|].
  intros u h2 (sl' & N & H2). unfold ctable in H2. rewrite (slots_none N) in H2.
  apply hwp_bind. eapply hwp_free; [exact H2|cbn [app]; pick|]. intros h3 H3.
  eapply hwp_free; [exact H3|pick|]. auto.
Qed.

(** A pointer to an object of wolfSSL, or NULL *)
Definition ocells (o : Z) : cells := if o =? 0 then [] else [(o, KObj)].
Lemma hfree_obj nf o F h : holds h (ocells o ++ F) -> hwp nf (hfree o) (fun _ h' => holds h' F) h.
Proof.
  unfold ocells. destruct (Z.eqb_spec o 0) as [->|]; intros HH; [exact HH|].
  eapply hwp_free; [exact HH|cbn [app]; pick|]. auto.
Qed.
Lemma halloc_obj nf ok F h (Q : Z -> heap -> Prop) : holds h F ->
  (forall o h', holds h' (ocells o ++ F) -> ok = negb (o =? 0) -> Q o h') -> hwp nf (halloc ok KObj) Q h.
Proof.
  intros HH q. eapply hwp_alloc; [exact HH| |].
  - intros ->. apply q; [exact HH|reflexivity].
  - intros a h' -> PA H'. apply q; unfold ocells; (destruct (Z.eqb_spec a 0); [lia|]); [exact H'|reflexivity].
Qed.

(** Chains *)
Definition cptr (l : list (Z * Z)) : Z := match l with [] => 0 | (a, _) :: _ => a end.
Fixpoint ccells (l : list (Z * Z)) : cells :=
  match l with [] => [] | (a, p) :: tl => (a, KChain p (cptr tl)) :: ccells tl end.
Lemma ccells_length l : length (ccells l) = length l.
Proof. induction l as [|[a p] l IH]; cbn; auto. Qed.
Lemma hchain_destroy_rec_spec nf fuel : forall l F h, (length l < fuel)%nat -> holds h (ccells l ++ F) ->
  hwp nf (hchain_destroy_rec fuel (cptr l)) (fun _ h' => holds h' F) h.
Proof.
  induction fuel as [|fuel IH]; [lia|]. intros l F h LF HH. cbn [hchain_destroy_rec].
  destruct l as [|[a p] l]; [exact HH|]. cbn [cptr].
  assert (PA : 0 < a) by (eapply holds_pos; [exact HH|now left]).
  destruct (Z.eqb_spec a 0); [lia|]. apply hwp_bind. eapply hwp_chain; [exact HH|now left|].
  apply hwp_bind. eapply hwp_mono; [apply (IH l ((a, KChain p (cptr l)) :: F))|].
  - cbn [length] in LF; lia.
  - eapply holds_perm; [|exact HH]. cbn [ccells app]. perm.
  - intros u h2 H2. eapply hwp_free; [exact H2|pick|]. auto.
Qed.
Lemma hchain_destroy_spec nf l F h : holds h (ccells l ++ F) ->
  hwp nf (hchain_destroy (cptr l)) (fun _ h' => holds h' F) h.
Proof.
  intros HH. eapply hwp_loop; [exact HH|]. intros fuel LF. apply hchain_destroy_rec_spec; [|exact HH].
  rewrite app_length, ccells_length in LF. lia.
Qed.
Definition plugins (l : list (Z * Z)) : list Z := filter (fun p => negb (p =? 0)) (map snd l).
Definition chain_ok (l : list (Z * Z)) : Prop :=
  (exists a, l = [(a, 0)]) \/ l <> [] /\ Forall (fun x => snd x <> 0) l.
Lemma hregister_rec_spec nf alloc p fuel : p <> 0 -> forall l F h, (length l < fuel)%nat -> (l = [(cptr l, 0)] \/ (S (length l) < fuel)%nat) -> chain_ok l -> holds h (ccells l ++ F) ->
  hwp nf (hregister_rec fuel alloc (cptr l) p)
    (fun rc h' => exists l', cptr l' = cptr l /\ chain_ok l' /\ holds h' (ccells l' ++ F) /\
       ((rc = HE_SUCCESS /\ plugins l' = plugins l ++ [p]) \/ (rc = HE_ERR_INIT_FAILED /\ alloc = false /\ l' = l))) h.
Proof.
  intros NP. induction fuel as [|fuel IH]; [lia|]. intros l F h LF LF2 OK HH. cbn [hregister_rec]. rewrite (proj2 (Z.eqb_neq p 0) NP), orb_false_r.
  destruct l as [|[a q] l].
  { exfalso. destruct OK as [(a & ?)|[? _]]; [discriminate|congruence]. }
  cbn [cptr]. assert (PA : 0 < a) by (eapply holds_pos; [exact HH|now left]).
  destruct (Z.eqb_spec a 0); [lia|]. apply hwp_bind. eapply hwp_chain; [exact HH|now left|].
  destruct (Z.eqb_spec q 0) as [->|NQ].
  - destruct OK as [(a' & E)|[_ F0]]; [|inversion F0; cbn in *; congruence]. injection E as <- ->.
    apply hwp_bind. eapply hwp_store; [exact HH|cbn [ccells app]; pick|]. intros h2 H2. apply hwp_ret.
    exists [(a, p)]. split; [reflexivity|]. split; [right; split; [discriminate|repeat constructor; exact NP]|].
    split; [exact H2|]. left. split; [reflexivity|]. unfold plugins. cbn. now destruct (Z.eqb_spec p 0).
  - destruct OK as [(a' & E)|[_ F0]]; [injection E as <- -> ->; lia|]. inversion F0 as [|x y Q0 F1]; subst x y.
    apply hwp_bind. destruct l as [|[a2 q2] l].
    + cbn [cptr Z.eqb]. apply hwp_bind. eapply hwp_alloc; [exact HH| |].
      * intros ->. apply hwp_bind. eapply hwp_store; [exact HH|cbn [ccells app]; pick|]. intros h2 H2.
        apply hwp_ret. cbn [Z.eqb]. apply hwp_ret. exists [(a, q)]. split; [reflexivity|].
        split; [right; split; [discriminate|exact F0]|]. split; [exact H2|]. right. auto.
      * intros a2 h2 AL P2 H2. apply hwp_bind. eapply hwp_store; [exact H2|cbn [ccells app]; pick|]. intros h3 H3.
        apply hwp_ret. destruct (Z.eqb_spec a2 0); [lia|].
        eapply hwp_mono; [apply (IH [(a2, 0)] ((a, KChain q a2) :: F))|].
        -- destruct LF2 as [E|LF2]; [injection E as E1; congruence|]. cbn [length] in *; lia.
        -- now left.
        -- left. now exists a2.
        -- eapply holds_perm; [|exact H3]. cbn [ccells cptr app]. perm.
        -- intros rc h4 (l' & CP & CO & H4 & D). destruct D as [[-> PL]|(_ & Z0 & _)]; [|congruence].
           exists ((a, q) :: l'). split; [reflexivity|]. split.
           { right. split; [discriminate|]. constructor; [exact NQ|]. destruct CO as [(b & ->)|[_ K]]; [|exact K].
             cbn in PL. discriminate. }
           split. { eapply holds_perm; [|exact H4]. cbn [ccells cptr app]. rewrite CP. cbn [cptr]. perm. }
           left. split; [reflexivity|]. unfold plugins in *. cbn [map snd filter] in *. rewrite PL. now destruct (q =? 0).
    + cbn [cptr]. assert (P2 : 0 < a2) by (eapply holds_pos; [exact HH|right; now left]).
      destruct (Z.eqb_spec a2 0); [lia|]. apply hwp_ret. destruct (Z.eqb_spec a2 0); [lia|].
      eapply hwp_mono; [apply (IH ((a2, q2) :: l) ((a, KChain q a2) :: F))|].
      * cbn [length] in *; lia.
      * right. destruct LF2 as [E|LF2]; [discriminate|]. cbn [length] in *; lia.
      * right. split; [discriminate|exact F1].
      * eapply holds_perm; [|exact HH]. cbn [ccells cptr app]. perm.
      * intros rc h4 (l' & CP & CO & H4 & D). exists ((a, q) :: l'). split; [reflexivity|]. split.
        { right. split; [discriminate|]. constructor; [exact NQ|]. destruct CO as [(b & ->)|[_ K]]; [|exact K].
          exfalso. destruct D as [[_ PL]|(_ & _ & Z0)].
          - unfold plugins in PL. change (filter (fun p0 : Z => negb (p0 =? 0)) (map snd [(b, 0)])) with (@nil Z) in PL. now apply app_cons_not_nil in PL.
          - injection Z0 as -> <- <-. inversion F1; cbn in *; congruence. }
        split. { eapply holds_perm; [|exact H4]. cbn [ccells cptr app]. rewrite CP. cbn [cptr]. perm. }
        destruct D as [[-> PL]|(-> & Z0 & ->)]; [left|right; auto]. split; [reflexivity|].
        unfold plugins in *. cbn [map snd filter] in *. rewrite PL. now destruct (q =? 0).
Qed.
Lemma hregister_spec nf alloc p l F h : p <> 0 -> chain_ok l -> holds h (ccells l ++ F) ->
  hwp nf (hregister alloc (cptr l) p)
    (fun rc h' => exists l', cptr l' = cptr l /\ chain_ok l' /\ holds h' (ccells l' ++ F) /\
       ((rc = HE_SUCCESS /\ plugins l' = plugins l ++ [p]) \/ (rc = HE_ERR_INIT_FAILED /\ alloc = false /\ l' = l))) h.
Proof.
  intros NP OK HH. unfold hregister. eapply hwp_loop; [exact HH|]. intros fuel LF. apply hregister_rec_spec; auto.
  all: rewrite app_length, ccells_length in LF; lia.
Qed.
Lemma hingress_rec_spec nf fuel : forall l F h (Q : list Z -> heap -> Prop), (length l < fuel)%nat -> holds h (ccells l ++ F) ->
  Q (plugins l) h -> hwp nf (hingress_rec fuel (cptr l)) Q h.
Proof.
  induction fuel as [|fuel IH]; [lia|]. intros l F h Q LF HH q. cbn [hingress_rec].
  destruct l as [|[a p] l]; [exact q|]. cbn [cptr].
  assert (PA : 0 < a) by (eapply holds_pos; [exact HH|now left]).
  destruct (Z.eqb_spec a 0); [lia|]. apply hwp_bind. eapply hwp_chain; [exact HH|now left|].
  apply hwp_bind. eapply (IH l ((a, KChain p (cptr l)) :: F)).
  - cbn [length] in LF; lia.
  - eapply holds_perm; [|exact HH]. cbn [ccells app]. perm.
  - apply hwp_ret. unfold plugins in *. cbn [map snd filter] in q. destruct (p =? 0); exact q.
Qed.
Lemma hegress_rec_spec nf fuel : forall l F h (Q : list Z -> heap -> Prop), (length l < fuel)%nat -> holds h (ccells l ++ F) ->
  Q (rev (plugins l)) h -> hwp nf (hegress_rec fuel (cptr l)) Q h.
Proof.
  induction fuel as [|fuel IH]; [lia|]. intros l F h Q LF HH q. cbn [hegress_rec].
  destruct l as [|[a p] l]; [exact q|]. cbn [cptr].
  assert (PA : 0 < a) by (eapply holds_pos; [exact HH|now left]).
  destruct (Z.eqb_spec a 0); [lia|]. apply hwp_bind. eapply hwp_chain; [exact HH|now left|].
  apply hwp_bind. eapply (IH l ((a, KChain p (cptr l)) :: F)).
  - cbn [length] in LF; lia.
  - eapply holds_perm; [|exact HH]. cbn [ccells app]. perm.
  - apply hwp_bind. eapply hwp_chain; [exact HH|now left|].
    apply hwp_ret. unfold plugins in *. cbn [map snd filter] in q. destruct (p =? 0); exact q.
Qed.

(** Connections, contexts, clients; each may be missing while a client is made. *)
Definition conn_part : Type := option (Z * tab * Z).
Definition ctx_part : Type := option (Z * Z).
Definition nptr (p : conn_part) : Z := match p with Some (a, _, _) => a | None => 0 end.
Definition ncells (p : conn_part) : cells :=
  match p with Some (a, t, s) => (a, KConn (tptr t) s) :: tcells t ++ ocells s | None => [] end.
Definition xptr (p : ctx_part) : Z := match p with Some (a, _) => a | None => 0 end.
Definition xcells (p : ctx_part) : cells := match p with Some (a, w) => (a, KCtx w) :: ocells w | None => [] end.
Definition client_cells (c : Z) (n : conn_part) (x : ctx_part) (i o : list (Z * Z)) : cells :=
  (c, KClient (nptr n) (xptr x) (cptr i) (cptr o)) :: ncells n ++ xcells x ++ ccells i ++ ccells o.

Lemma hconn_destroy_spec nf p F h : holds h (ncells p ++ F) ->
  hwp nf (hconn_destroy (nptr p)) (fun _ h' => holds h' F) h.
Proof.
  destruct p as [[[a t] s]|]; cbn [nptr ncells]; intros HH; [|exact HH].
  unfold hconn_destroy. assert (PA : 0 < a) by (eapply holds_pos; [exact HH|now left]).
  destruct (Z.eqb_spec a 0); [lia|]. apply hwp_bind. eapply hwp_conn; [exact HH|now left|].
  apply hwp_bind. eapply hwp_mono; [apply (@htable_destroy_spec nf t ((a, KConn (tptr t) s) :: ocells s ++ F))|].
  { eapply holds_perm; [|exact HH]. perm. }
  intros u h2 H2. apply hwp_bind. eapply hwp_conn; [exact H2|now left|].
  apply hwp_bind. eapply hwp_mono; [apply (@hfree_obj nf s ((a, KConn (tptr t) s) :: F))|].
  { eapply holds_perm; [|exact H2]. perm. }
  intros u' h3 H3. eapply hwp_free; [exact H3|pick|]. auto.
Qed.
Lemma hctx_destroy_spec nf p F h : holds h (xcells p ++ F) ->
  hwp nf (hctx_destroy (xptr p)) (fun _ h' => holds h' F) h.
Proof.
  destruct p as [[a w]|]; cbn [xptr xcells]; intros HH; [|exact HH].
  unfold hctx_destroy. assert (PA : 0 < a) by (eapply holds_pos; [exact HH|now left]).
  destruct (Z.eqb_spec a 0); [lia|]. apply hwp_bind. eapply hwp_ctx; [exact HH|now left|].
  apply hwp_bind. eapply hwp_mono; [apply (@hfree_obj nf w ((a, KCtx w) :: F))|].
  { eapply holds_perm; [|exact HH]. perm. }
  intros u' h3 H3. eapply hwp_free; [exact H3|pick|]. auto.
Qed.
Lemma hclient_destroy_spec nf c n x i o F h : holds h (client_cells c n x i o ++ F) ->
  hwp nf (hclient_destroy c) (fun rc h' => rc = HE_SUCCESS /\ holds h' F) h.
Proof.
  intros HH. unfold hclient_destroy. assert (PA : 0 < c) by (eapply holds_pos; [exact HH|now left]).
  destruct (Z.eqb_spec c 0); [lia|]. apply hwp_bind. apply hwp_bind. eapply hwp_client; [exact HH|now left|].
  set (C := (c, KClient (nptr n) (xptr x) (cptr i) (cptr o))) in *.
  apply hwp_bind. eapply hwp_mono; [apply (@hconn_destroy_spec nf n (C :: xcells x ++ ccells i ++ ccells o ++ F))|].
  { eapply holds_perm; [|exact HH]. unfold client_cells. fold C. perm. }
  intros u h2 H2. apply hwp_bind. eapply hwp_mono; [apply (@hctx_destroy_spec nf x (C :: ccells i ++ ccells o ++ F))|].
  { eapply holds_perm; [|exact H2]. perm. }
  intros u2 h3 H3. apply hwp_bind. eapply hwp_mono; [apply (@hchain_destroy_spec nf i (C :: ccells o ++ F))|].
  { eapply holds_perm; [|exact H3]. perm. }
  intros u3 h4 H4. apply hwp_bind. eapply hwp_mono; [apply (@hchain_destroy_spec nf o (C :: F))|].
  { eapply holds_perm; [|exact H4]. perm. }
  intros u4 h5 H5. eapply hwp_free; [exact H5|pick|]. intros h6 H6. apply hwp_ret. auto.
Qed.

Lemma hclient_create_spec nf a0 a1 a2 a3 a4 F h : holds h F ->
  hwp nf (hclient_create a0 a1 a2 a3 a4)
    (fun c h' => (c = 0 /\ a0 && a1 && a2 && a3 && a4 = false /\ holds h' F) \/
       (0 < c /\ a0 && a1 && a2 && a3 && a4 = true /\
        exists n x i o, holds h' (client_cells c (Some (n, None, 0)) (Some (x, 0)) [(i, 0)] [(o, 0)] ++ F))) h.
Proof.
  intros HH. apply hwp_bind. eapply hwp_alloc; [exact HH| |].
  { intros ->. cbn [Z.eqb]. apply hwp_ret. left. auto. }
  intros c h1 -> PC H1. destruct (Z.eqb_spec c 0); [lia|].
  set (C0 := (c, KClient 0 0 0 0)) in *.
  assert (ALLOC : forall (ok : bool) (k : cell) L (h : heap) (Q : Z -> heap -> Prop), holds h L ->
     (forall (a : Z) (h' : heap), holds h' ((if a =? 0 then [] else [(a, k)]) ++ L) -> ok = negb (a =? 0) -> 0 <= a -> Q a h') -> hwp nf (halloc ok k) Q h).
  { intros ok k L h' Q HL q. eapply hwp_alloc; [exact HL| |].
    - intros ->. apply q; [exact HL|reflexivity|lia].
    - intros a h2 -> PA H2. apply q; try (destruct (Z.eqb_spec a 0); [lia|]); [exact H2|reflexivity|lia]. }
  apply hwp_bind. eapply ALLOC; [exact H1|]. intros x h2 H2 X2 PX.
  apply hwp_bind. eapply ALLOC; [exact H2|]. intros n0 h3 H3 X3 PN.
  apply hwp_bind. eapply ALLOC; [exact H3|]. intros i h4 H4 X4 PI.
  apply hwp_bind. eapply ALLOC; [exact H4|]. intros o h5 H5 X5 PO.
  apply hwp_bind. eapply hwp_store; [exact H5|unfold C0; pick|]. intros h6 H6. cbn beta in H6.
  set (np := if n0 =? 0 then None else Some (n0, None : tab, 0)).
  set (xp := if x =? 0 then None else Some (x, 0)).
  set (ip := if i =? 0 then [] else [(i, 0)]). set (op := if o =? 0 then [] else [(o, 0)]).
  assert (EN : nptr np = n0) by (unfold np; destruct (Z.eqb_spec n0 0); auto).
  assert (EX : xptr xp = x) by (unfold xp; destruct (Z.eqb_spec x 0); auto).
  assert (EI : cptr ip = i) by (unfold ip; destruct (Z.eqb_spec i 0); auto).
  assert (EO : cptr op = o) by (unfold op; destruct (Z.eqb_spec o 0); auto).
  assert (HA : holds h6 (client_cells c np xp ip op ++ F)).
  { unfold client_cells. rewrite EN, EX, EI, EO. eapply holds_perm; [|exact H6].
    unfold np, xp, ip, op. destruct (n0 =? 0), (x =? 0), (i =? 0), (o =? 0); cbn [ncells xcells ccells tcells tptr ocells cptr Z.eqb app]; perm. }
  destruct ((x =? 0) || (n0 =? 0) || (i =? 0) || (o =? 0)) eqn:E.
  - apply hwp_bind. eapply hwp_mono; [apply hclient_destroy_spec with (1 := HA)|].
    intros rc h7 [_ H7]. apply hwp_ret. left. split; [reflexivity|]. split; [|exact H7].
    rewrite X2, X3, X4, X5. destruct (x =? 0), (n0 =? 0), (i =? 0), (o =? 0); try discriminate; reflexivity.
  - apply hwp_ret. right. split; [exact PC|]. split.
    { rewrite X2, X3, X4, X5. destruct (x =? 0), (n0 =? 0), (i =? 0), (o =? 0); try discriminate; reflexivity. }
    exists n0, x, i, o. unfold np, xp, ip, op in HA.
    destruct (x =? 0), (n0 =? 0), (i =? 0), (o =? 0); try discriminate. exact HA.
Qed.

(** ** A client in use *)
Record own := Own { o_c : Z; o_n : Z; o_x : Z; o_tab : tab; o_ssl : Z; o_wolf : Z; o_in : list (Z * Z); o_out : list (Z * Z) }.
Definition own_cells (g : own) : cells :=
  client_cells (o_c g) (Some (o_n g, o_tab g, o_ssl g)) (Some (o_x g, o_wolf g)) (o_in g) (o_out g).
Definition unconnected (g : own) : Prop := o_tab g = None /\ o_ssl g = 0 /\ o_wolf g = 0.
Definition good (num : Z) (w : waiting) (TT : option table) (g : own) : Prop :=
  chain_ok (o_in g) /\ chain_ok (o_out g) /\
  match o_tab g with
  | None => TT = None /\ forall i, w i = None
  | Some (_, _, sl) => exists T, TT = Some T /\ stands sl T /\ ents_ok sl /\ 1 <= num <= 65536 /\ t_num T = num /\ tracks T w
  end.
Definition reg (inside : bool) (o : mop) (r : Z * option bytes) : list Z := registered inside [(o, r)].

Definition step_post (num : Z) (w : waiting) (TT : option table) (g : own) (F : cells) (o : mop) (r : Z * option bytes) (h' : heap) : Prop :=
  exists g' lost num' w' TT', o_c g' = o_c g /\ holds h' (own_cells g' ++ lost ++ F) /\ good num' w' TT' g' /\
    same_step TT o r TT' /\
    plugins (o_in g') = plugins (o_in g) ++ reg true o r /\ plugins (o_out g') = plugins (o_out g) ++ reg false o r /\
    match o with
    | MConnect _ _ _ _ frags => unconnected g -> lost = [] /\ w' = w /\ num' = table_size frags
    | _ => num' = num /\ w' = arrive num w o r /\ (unconnected g -> unconnected g') /\
           Forall is_node lost /\ (lost <> [] -> strays num w o)
    end.

Lemma stands_new num : 1 <= num <= 65536 ->
  stands (repeat None (Z.to_nat num)) (Table num (fun _ => None)) /\ ents_ok (repeat None (Z.to_nat num)).
Proof.
  intros R. split; [split|].
  - rewrite repeat_length. cbn. lia.
  - cbn [t_num t_get]. intros i Hi. now rewrite nth_repeat.
  - unfold ents_ok. apply Forall_forall. intros o I. apply repeat_spec in I. now subst.
Qed.
Lemma table_size_range f : 0 <= f <= 65536 -> 1 <= table_size f <= 65536.
Proof. unfold table_size. destruct (Z.eqb_spec f 0); lia. Qed.
Lemma hwp_nf {A} (nf nf' : Prop) (m : H A) Q h : (nf -> nf') -> hwp nf m Q h -> hwp nf' m Q h.
Proof. unfold hwp. destruct (m h); tauto. Qed.

Lemma step_connect new a1 a2 ssl frags num w TT g F h :
  0 <= frags <= 65536 -> holds h (own_cells g ++ F) -> good num w TT g ->
  hwp False (mstep (o_c g) (MConnect new a1 a2 ssl frags)) (step_post num w TT g F (MConnect new a1 a2 ssl frags)) h.
Proof.
  intros R HH (CI & CO & GT). unfold mstep, hclient_connect. apply hwp_bind. apply hwp_bind.
  eapply hwp_client; [exact HH|now left|]. apply hwp_bind. unfold hctx_start.
  apply hwp_bind. eapply halloc_obj; [exact HH|]. intros wo h1 H1 W1.
  apply hwp_bind. eapply hwp_ctx; [exact H1| |].
  { apply in_app_iff. right. apply in_app_iff. left. unfold own_cells, client_cells. right. rewrite !in_app_iff.
    right; left. left. reflexivity. }
  apply hwp_bind. eapply hwp_store; [exact H1| |].
  { unfold own_cells, client_cells, ncells, xcells, xptr. perm. }
  intros h2 H2.
  set (g2 := Own (o_c g) (o_n g) (o_x g) (o_tab g) (o_ssl g) wo (o_in g) (o_out g)).
  assert (H2' : holds h2 (own_cells g2 ++ ocells (o_wolf g) ++ F)).
  { eapply holds_perm; [|exact H2]. unfold own_cells, client_cells, ncells, xcells, xptr, g2. cbn [o_c o_n o_x o_tab o_ssl o_wolf o_in o_out]. perm. }
  clear H2 H1 HH.
  destruct (Z.eqb_spec wo 0) as [->|NW].
  { apply hwp_ret. cbn [negb]. change (HE_ERR_INIT_FAILED =? HE_SUCCESS) with false. cbn [negb]. apply hwp_ret. apply hwp_ret.
    exists g2, (ocells (o_wolf g)).
    assert (GE : exists num', (unconnected g -> num' = table_size frags) /\ good num' w TT g2).
    { unfold good. cbn [g2 o_in o_out o_tab]. unfold unconnected. destruct (o_tab g) as [[[ta ts] sl]|].
      - exists num. split; [intros [? _]; discriminate|auto].
      - exists (table_size frags). auto. }
    destruct GE as (num' & N1 & G1). exists num', w, TT. split; [reflexivity|]. split; [exact H2'|]. split; [exact G1|].
    split; [rewrite W1; now split|].
    cbn [reg registered flat_map]. rewrite !app_nil_r. split; [reflexivity|]. split; [reflexivity|].
    intros U. split; [|split; [reflexivity|now apply N1]]. destruct U as (_ & _ & ->). reflexivity. }
  apply hwp_ret. change (HE_SUCCESS =? HE_SUCCESS) with true. cbn [negb].
  apply hwp_bind. eapply hwp_client; [exact H2'|now left|].
  unfold hconn_connect. apply hwp_bind. eapply hwp_mono; [apply htable_create_spec with (1 := R) (2 := H2')|].
  intros t h3 H3.
  assert (exists tb : tab, tptr tb = t /\ holds h3 (tcells tb ++ own_cells g2 ++ ocells (o_wolf g) ++ F) /\
    (a1 && a2 = match tb with None => false | Some _ => true end) /\
    match tb with None => True | Some (_, _, sl) => sl = repeat None (Z.to_nat (table_size frags)) end) as (tb & ET & H3' & A12 & FT).
  { destruct H3 as [(-> & K & A12)|(PT & A12 & s & K)].
    - exists None. auto.
    - exists (Some (t, s, repeat None (Z.to_nat (table_size frags)))). auto. }
  assert (TC : table_create a1 a2 frags = match tb with None => None | Some _ => Some (Table (table_size frags) (fun _ => None)) end).
  { unfold table_create, table_size. change MAX_FRAGMENT_ENTRIES with 65536. destruct tb, a1, a2; try discriminate; reflexivity. }
  assert (ZT : t = 0 -> tb = None).
  { destruct H3 as [(-> & _ & _)|(PT & _)]; [|lia]. intros _. destruct tb as [[[ta ts] sl]|]; [|reflexivity].
    cbn in ET. assert (0 < ta) by (eapply holds_pos; [exact H3'|now left]). lia. }
  clear H3.
  apply hwp_bind. eapply hwp_conn; [exact H3'| |].
  { apply in_app_iff. right. apply in_app_iff. left. unfold own_cells, client_cells. right. left. reflexivity. }
  apply hwp_bind. eapply hwp_store; [exact H3'| |].
  { unfold own_cells, client_cells, ncells, nptr. perm. }
  intros h4 H4.
  set (g3 := Own (o_c g) (o_n g) (o_x g) tb (o_ssl g) wo (o_in g) (o_out g)).
  assert (H4' : holds h4 (own_cells g3 ++ (tcells (o_tab g) ++ ocells (o_wolf g)) ++ F)).
  { eapply holds_perm; [|exact H4]. rewrite <- ET. unfold own_cells, client_cells, ncells, nptr, g3, g2.
    cbn [o_c o_n o_x o_tab o_ssl o_wolf o_in o_out]. perm. }
  assert (G3 : forall s, good (table_size frags) (fun _ => None) (table_create a1 a2 frags) (Own (o_c g) (o_n g) (o_x g) tb s wo (o_in g) (o_out g)) /\
                (o_tab g = None -> good (table_size frags) w (table_create a1 a2 frags) (Own (o_c g) (o_n g) (o_x g) tb s wo (o_in g) (o_out g)))).
  { intros s. destruct (stands_new (table_size_range R)) as [S1 S2].
    unfold good. rewrite TC. cbn [o_in o_out o_tab]. split; [|intros NT; rewrite NT in GT; destruct GT as [_ GT]]; (split; [exact CI|]; split; [exact CO|]);
      (destruct tb as [[[ta ts] sl]|]; [|auto]); subst sl; exists (Table (table_size frags) (fun _ => None));
      (split; [reflexivity|]; split; [exact S1|]; split; [exact S2|]; split; [now apply table_size_range|]; split; [reflexivity|]); intros i _; cbn; auto. }
  clear H4 H3' H2'. destruct (Z.eqb_spec t 0) as [T0|NT0].
  { apply hwp_ret. apply hwp_ret.
    exists g3, (tcells (o_tab g) ++ ocells (o_wolf g)), (table_size frags).
    destruct (G3 (o_ssl g)) as [GA GB].
    exists (match o_tab g with None => w | Some _ => fun _ => None end), (table_create a1 a2 frags).
    split; [reflexivity|]. split; [exact H4'|]. split; [destruct (o_tab g) eqn:OT; [exact GA|now apply GB]|].
    split. { cbn [same_step]. rewrite W1. replace (wo =? 0) with false by lia. cbn [negb]. rewrite A12, (ZT T0). now split. }
    cbn [reg registered flat_map]. rewrite !app_nil_r. split; [reflexivity|]. split; [reflexivity|].
    intros (U1 & U2 & U3). rewrite U1, U3. auto. }
  apply hwp_bind. eapply halloc_obj; [exact H4'|]. intros so h5 H5 S5.
  apply hwp_bind. eapply hwp_store; [exact H5| |].
  { unfold own_cells, client_cells, ncells, nptr, g3. cbn [o_c o_n o_x o_tab o_ssl o_wolf o_in o_out]. perm. }
  intros h6 H6.
  set (g4 := Own (o_c g) (o_n g) (o_x g) tb so wo (o_in g) (o_out g)).
  assert (H6' : holds h6 (own_cells g4 ++ (ocells (o_ssl g) ++ tcells (o_tab g) ++ ocells (o_wolf g)) ++ F)).
  { eapply holds_perm; [|exact H6]. rewrite <- ET. unfold own_cells, client_cells, ncells, nptr, g4, g3.
    cbn [o_c o_n o_x o_tab o_ssl o_wolf o_in o_out]. perm. }
  assert (FIN : forall rc, rc = (if ssl then HE_SUCCESS else HE_ERR_INIT_FAILED) -> step_post num w TT g F (MConnect new a1 a2 ssl frags) (rc, None) h6).
  { intros rc RC. exists g4, (ocells (o_ssl g) ++ tcells (o_tab g) ++ ocells (o_wolf g)), (table_size frags).
    destruct (G3 so) as [GA GB].
    exists (match o_tab g with None => w | Some _ => fun _ => None end), (table_create a1 a2 frags).
    split; [reflexivity|]. split; [exact H6'|]. split; [destruct (o_tab g) eqn:OT; [exact GA|now apply GB]|].
    split. { cbn [same_step]. rewrite W1. replace (wo =? 0) with false by lia. cbn [negb]. rewrite A12, RC.
             destruct tb; [now split|]. cbn in ET. lia. }
    cbn [reg registered flat_map]. rewrite !app_nil_r. split; [reflexivity|]. split; [reflexivity|].
    intros (U1 & U2 & U3). rewrite U1, U2, U3. auto. }
  rewrite S5 in FIN. destruct (so =? 0); apply hwp_ret; apply hwp_ret; rewrite S5; now apply FIN.
Qed.

Lemma step_plugin inside alloc p num w TT g F h :
  p <> 0 -> holds h (own_cells g ++ F) -> good num w TT g ->
  hwp False (mstep (o_c g) (MPlugin inside alloc p)) (step_post num w TT g F (MPlugin inside alloc p)) h.
Proof.
  intros NP HH (CI & CO & GT). unfold mstep. apply hwp_bind. eapply hwp_client; [exact HH|now left|].
  apply hwp_bind.
  set (R := (o_c g, KClient (o_n g) (o_x g) (cptr (o_in g)) (cptr (o_out g))) :: ncells (Some (o_n g, o_tab g, o_ssl g)) ++ xcells (Some (o_x g, o_wolf g))).
  assert (FIN : forall l' rc h', cptr l' = cptr (if inside then o_in g else o_out g) -> chain_ok l' ->
     holds h' (ccells l' ++ R ++ (if inside then ccells (o_out g) else ccells (o_in g)) ++ F) ->
     plugins l' = plugins (if inside then o_in g else o_out g) ++ (if rc =? HE_SUCCESS then [p] else []) ->
     rc = HE_SUCCESS \/ rc = HE_ERR_INIT_FAILED /\ alloc = false ->
     step_post num w TT g F (MPlugin inside alloc p) (rc, None) h').
  { intros l' rc h' CP OK H' PL RC.
    exists (Own (o_c g) (o_n g) (o_x g) (o_tab g) (o_ssl g) (o_wolf g) (if inside then l' else o_in g) (if inside then o_out g else l')), [], num, w, TT.
    split; [reflexivity|]. split.
    { eapply holds_perm; [|exact H']. unfold own_cells, client_cells, R. cbn [o_c o_n o_x o_tab o_ssl o_wolf o_in o_out].
      destruct inside; rewrite CP; cbn [nptr xptr]; perm. }
    split; [unfold good; cbn [o_in o_out o_tab]; destruct inside; auto|].
    split; [split; [reflexivity|]; destruct RC as [->|[-> ->]]; auto|].
    cbn [o_in o_out]. unfold reg, registered. cbn [flat_map]. rewrite !app_nil_r.
    split; [|split].
    - destruct inside; cbn [Bool.eqb andb]; [exact PL|now rewrite app_nil_r].
    - destruct inside; cbn [Bool.eqb andb]; [now rewrite app_nil_r|exact PL].
    - split; [reflexivity|]. split; [reflexivity|]. split; [exact (fun x => x)|]. split; [constructor|easy]. }
  replace (if inside then cptr (o_in g) else cptr (o_out g)) with (cptr (if inside then o_in g else o_out g)) by now destruct inside.
  eapply hwp_mono; [apply (@hregister_spec False alloc p (if inside then o_in g else o_out g) (R ++ (if inside then ccells (o_out g) else ccells (o_in g)) ++ F))|].
  - exact NP.
  - now destruct inside.
  - eapply holds_perm; [|exact HH]. unfold own_cells, client_cells, R. cbn [nptr xptr]. destruct inside; perm.
  - intros rc h' (l' & CP & OK & H' & D). apply hwp_ret. apply (FIN l'); auto.
    + destruct D as [[-> PL]|(-> & _ & ->)]; [exact PL|]. cbn. now rewrite app_nil_r.
    + destruct D as [[-> PL]|(-> & Z0 & ->)]; auto.
Qed.

Lemma step_frag a1 a2 now1 now2 id off mf data num w TT g F h :
  0 <= off -> holds h (own_cells g ++ F) -> good num w TT g ->
  hwp (a2 = false) (mstep (o_c g) (MFrag a1 a2 now1 now2 id off mf data))
    (step_post num w TT g F (MFrag a1 a2 now1 now2 id off mf data)) h.
Proof.
  intros Ho HH (CI & CO & GT). unfold mstep. apply hwp_bind. eapply hwp_client; [exact HH|now left|].
  apply hwp_bind. eapply hwp_conn; [exact HH|right; left; reflexivity|].
  destruct (o_tab g) as [[[ta ts] sl]|] eqn:OT; cbn [tptr].
  - destruct GT as (T & ET & ST & OK & NR & TN & TR).
    set (R := (o_c g, KClient (o_n g) (o_x g) (cptr (o_in g)) (cptr (o_out g))) :: (o_n g, KConn ta (o_ssl g)) :: ocells (o_ssl g) ++ xcells (Some (o_x g, o_wolf g)) ++ ccells (o_in g) ++ ccells (o_out g)).
    eapply hwp_mono; [apply (@hfrag_spec a1 a2 now1 now2 ta ts sl T id off mf data (R ++ F)); auto|].
    + eapply holds_perm; [|exact HH]. unfold own_cells, client_cells, R. rewrite OT. cbn [nptr xptr ncells tcells tptr]. perm.
    + now rewrite TN.
    + intros r h' (sl' & T' & lost & E & ST' & OK' & LL & H' & NL & LO).
      assert (TRK : tracks (match snd r with Some _ => table_delete T' id | None => T' end)
                     (arrive num w (MFrag a1 a2 now1 now2 id off mf data) r) /\ t_num T' = num).
      { change HE_MAX_WIRE_MTU with 1500 in E. destruct (1500 <? off + len data) eqn:E0.
        - destruct E as [-> ->]. cbn [snd]. split; [|exact TN]. unfold arrive. cbn [fst]. exact TR.
        - rewrite <- TN. destruct r as [rc pk]. cbn [fst snd] in E |- *.
          apply (@tracks_frag a1 a2 now1 now2 T id off mf data rc pk T' w); auto; lia. }
      exists (Own (o_c g) (o_n g) (o_x g) (Some (ta, ts, sl')) (o_ssl g) (o_wolf g) (o_in g) (o_out g)), lost, num,
             (arrive num w (MFrag a1 a2 now1 now2 id off mf data) r), (Some (match snd r with Some _ => table_delete T' id | None => T' end)).
      split; [reflexivity|]. split.
      { eapply holds_perm; [|exact H']. unfold own_cells, client_cells, R. cbn [o_c o_n o_x o_tab o_ssl o_wolf o_in o_out nptr xptr ncells tcells tptr]. perm. }
      split.
      { split; [exact CI|]. split; [exact CO|]. cbn [o_tab]. eexists. split; [reflexivity|]. split; [exact ST'|]. split; [exact OK'|]. split; [exact NR|].
        split; [|apply TRK]. destruct (snd r); apply TRK. }
      split.
      { cbn [same_step]. change HE_MAX_WIRE_MTU with 1500 in E. rewrite ET. destruct (1500 <? off + len data).
        - destruct E as [-> ->]. now split.
        - exists T'. now split. }
      cbn [o_in o_out reg registered flat_map]. rewrite !app_nil_r. split; [reflexivity|]. split; [reflexivity|].
      split; [reflexivity|]. split; [reflexivity|]. split.
      { intros [U _]. rewrite OT in U. discriminate. }
      split; [exact NL|]. intros Z0. destruct (LO Z0) as [L1 L2]. rewrite <- TN. apply losing_strays; auto. now rewrite TN.
  - assert (FIN : forall rc, rc = (if HE_MAX_WIRE_MTU <? off + len data then HE_ERR_POINTER_WOULD_OVERFLOW else HE_ERR_NO_MEMORY) ->
      step_post num w TT g F (MFrag a1 a2 now1 now2 id off mf data) (rc, None) h).
    { intros rc RC. exists g, [], num, w, None. split; [reflexivity|]. split; [exact HH|]. split.
      { split; [exact CI|]. split; [exact CO|]. rewrite OT. now split. }
      split.
      { cbn [same_step]. change HE_MAX_WIRE_MTU with 1500 in RC. destruct GT as [-> _]. destruct (1500 <? off + len data); now rewrite RC. }
      cbn [reg registered flat_map]. rewrite !app_nil_r. split; [reflexivity|]. split; [reflexivity|].
      split; [reflexivity|]. split; [unfold arrive; cbn [fst]; rewrite RC; now destruct (HE_MAX_WIRE_MTU <? off + len data)|].
      split; [exact (fun x => x)|]. split; [constructor|easy]. }
    unfold hfrag. destruct (HE_MAX_WIRE_MTU <? off + len data).
    + apply hwp_ret. now apply FIN.
    + apply hwp_bind. unfold hfind. cbn [Z.eqb]. apply hwp_ret. cbn [Z.eqb]. apply hwp_ret. now apply FIN.
Qed.

Lemma mstep_spec o num w TT g F h : op_ok o -> holds h (own_cells g ++ F) -> good num w TT g ->
  hwp (starved o) (mstep (o_c g) o) (step_post num w TT g F o) h.
Proof.
  intros OK HH G. destruct o as [new a1 a2 ssl frags|a1 a2 now1 now2 id off mf data|inside alloc p].
  - eapply hwp_nf; [|apply step_connect; auto]. tauto.
  - eapply hwp_nf; [|apply step_frag; auto]. cbn. intros ->. exact I.
  - eapply hwp_nf; [|apply step_plugin; auto]. tauto.
Qed.

Lemma reg_cons inside o r l : registered inside ((o, r) :: l) = reg inside o r ++ registered inside l.
Proof. unfold reg, registered. cbn [flat_map]. now rewrite app_nil_r. Qed.

Lemma mrun_spec ops : forall num w TT g F h, Forall op_ok ops -> holds h (own_cells g ++ F) -> good num w TT g ->
  hwp (Exists starved ops) (mrun (o_c g) ops)
    (fun rs h' => exists g' L' num' w' TT', o_c g' = o_c g /\ holds h' (own_cells g' ++ L' ++ F) /\ good num' w' TT' g' /\
       same_run TT rs /\
       plugins (o_in g') = plugins (o_in g) ++ registered true rs /\
       plugins (o_out g') = plugins (o_out g) ++ registered false rs /\
       (unconnected g /\ (length (connections ops) <= 1)%nat \/ connections ops = [] ->
        (forall f, In f (connections ops) -> table_size f = num) ->
        Forall is_node L' /\ (orderly num w rs -> L' = []))) h.
Proof.
  induction ops as [|o ops IH]; intros num w TT g F h OK HH G; cbn [mrun].
  - apply hwp_ret. exists g, [], num, w, TT. split; [reflexivity|]. split; [exact HH|]. split; [exact G|]. split; [exact I|].
    cbn [registered flat_map]. rewrite !app_nil_r. repeat (split; [reflexivity|]). intros _ _. split; [constructor|auto].
  - inversion OK as [|x y OK1 OK2]; subst x y. apply hwp_bind.
    eapply hwp_mono; [eapply hwp_nf; [|apply mstep_spec with (2 := HH) (3 := G); exact OK1]; now left|].
    intros r h1 (g1 & lost & num1 & w1 & TT1 & EC & H1 & G1 & SS1 & PI & PO & D).
    apply hwp_bind. rewrite <- EC. eapply hwp_mono; [eapply hwp_nf; [|apply IH with (1 := OK2) (2 := H1) (3 := G1)]; now right|].
    intros rs h2 (g2 & L2 & num2 & w2 & TT2 & EC2 & H2 & G2 & SS2 & PI2 & PO2 & D2). apply hwp_ret.
    exists g2, (L2 ++ lost), num2, w2, TT2. split; [exact EC2|]. split; [now rewrite <- app_assoc|].
    split; [exact G2|]. split; [now exists TT1|]. rewrite !reg_cons. split; [now rewrite PI2, PI, app_assoc|]. split; [now rewrite PO2, PO, app_assoc|].
    intros C T.
    assert (CC : connections (o :: ops) = match o with MConnect _ _ _ _ f => [f] | _ => [] end ++ connections ops) by reflexivity.
    rewrite CC in C, T. rewrite Forall_app. cbn [orderly].
    destruct o as [new a1 a2 ssl frags|a1 a2 now1 now2 id off mf data|inside alloc p]; cbn [app length] in C, T.
    + destruct C as [[U LE]|C]; [|discriminate]. destruct (D U) as (-> & -> & ->). rewrite app_nil_r.
      assert (NC : connections ops = []) by (destruct (connections ops); [auto|cbn in LE; lia]).
      rewrite (T frags (or_introl eq_refl)) in *. destruct D2 as [D2 D3]; [now right|now rewrite NC|].
      split; [split; [exact D2|constructor]|]. intros [_ O2]. now apply D3.
    + destruct D as (-> & -> & U1 & NL & LO). destruct D2 as [D2 D3]; [tauto|exact T|].
      split; [split; [exact D2|exact NL]|]. intros [O1 O2]. rewrite (D3 O2). destruct lost; [reflexivity|]. exfalso. apply O1, LO. discriminate.
    + destruct D as (-> & -> & U1 & NL & LO). destruct D2 as [D2 D3]; [tauto|exact T|].
      split; [split; [exact D2|exact NL]|]. intros [O1 O2]. rewrite (D3 O2). destruct lost; [reflexivity|]. exfalso. apply O1, LO. discriminate.
Qed.
