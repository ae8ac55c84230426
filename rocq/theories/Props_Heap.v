(** C39: memory is neither used after it is freed nor freed twice, and what the
    library allocates is freed.  C40: creation is all or nothing; plugins. *)
From Coq Require Import Permutation.
From Verif Require Import Base Codes Frag FragSpec FragProofs ReasmProofs ReasmTable Heap HeapSpec HeapProofs HeapLife.
Unset Strict Implicit.

Lemma created a0 a1 a2 a3 a4 c h : hclient_create a0 a1 a2 a3 a4 heap_new = HDone c h -> c <> 0 ->
  exists g, o_c g = c /\ holds h (own_cells g ++ []) /\ unconnected g /\
    (forall num, good num (fun _ => None) None g) /\ plugins (o_in g) = [] /\ plugins (o_out g) = [].
Proof.
  intros E NC. pose proof (@hclient_create_spec False a0 a1 a2 a3 a4 [] heap_new holds_new) as K.
  unfold hwp in K. rewrite E in K. destruct K as [(-> & _)|(_ & _ & n & x & i & o & K)]; [congruence|].
  exists (Own c n x None 0 0 [(i, 0)] [(o, 0)]). split; [reflexivity|]. split; [exact K|].
  split; [repeat split|]. split; [|split; reflexivity]. intros num. unfold good. cbn [o_in o_out o_tab].
  split; [left; now exists i|]. split; [left; now exists o|]. now split.
Qed.

Lemma holds_nil h : holds h [] -> nothing_left h.
Proof.
  intros (_ & X & _) a. destruct (h_at h a) as [c|] eqn:E; [|reflexivity]. apply X in E. destruct E.
Qed.

Lemma ran num a0 a1 a2 a3 a4 c h ops :
  hclient_create a0 a1 a2 a3 a4 heap_new = HDone c h -> c <> 0 -> Forall op_ok ops ->
  hwp (Exists starved ops) (mrun c ops) (fun rs h1 =>
    exists g L, o_c g = c /\ holds h1 (own_cells g ++ L) /\ same_run None rs /\
      plugins (o_in g) = registered true rs /\ plugins (o_out g) = registered false rs /\
      ((length (connections ops) <= 1)%nat -> (forall f, In f (connections ops) -> table_size f = num) ->
       Forall is_node L /\ (orderly num (fun _ => None) rs -> L = []))) h.
Proof.
  intros E NC OK. destruct (created E NC) as (g & <- & HH & U & G & PI & PO).
  eapply hwp_mono; [apply (mrun_spec OK HH (G num))|].
  intros rs h1 (g' & L & num' & w' & TT & EC & H1 & G1 & SR & PI1 & PO1 & D).
  exists g', L. split; [exact EC|]. split; [now rewrite app_nil_r in H1|]. split; [exact SR|].
  split; [now rewrite PI1, PI|]. split; [now rewrite PO1, PO|]. intros LE NUM.
  exact (D (or_introl (conj U LE)) NUM).
Qed.

(** ** C39 *)
(** Whatever a host does with a client and whatever fragments its peer sends, in
    any order and with any of the allocations failing: no call reads, writes or
    frees memory that is not allocated, nor follows a pointer to an object of
    another type, nor leaves an array; the only fault there can be is NULL being
    dereferenced, and that only if the memory for a received range is refused.
    The client can then be destroyed, without fault. *)
Theorem C39_safe : forall a0 a1 a2 a3 a4 ops, Forall op_ok ops ->
  match hclient_create a0 a1 a2 a3 a4 heap_new with
  | HFault _ => False
  | HDone c h => c <> 0 ->
    match mrun c ops h with
    | HFault f => f = FNull /\ Exists starved ops
    | HDone rs h1 => exists h2, hclient_destroy c h1 = HDone HE_SUCCESS h2
    end
  end.
Proof.
  intros a0 a1 a2 a3 a4 ops OK. destruct (hclient_create a0 a1 a2 a3 a4 heap_new) as [c h|f] eqn:E.
  - intros NC. pose proof (ran 0 E NC OK) as K. unfold hwp in K. destruct (mrun c ops h) as [rs h1|f]; [|exact K].
    destruct K as (g & L & <- & HH & _). pose proof (@hclient_destroy_spec False _ _ _ _ _ L h1 HH) as K.
    unfold hwp in K. destruct (hclient_destroy (o_c g) h1) as [rc h2|f]; [|tauto]. destruct K as [-> K]. eauto.
  - pose proof (@hclient_create_spec False a0 a1 a2 a3 a4 [] heap_new holds_new) as K. unfold hwp in K. rewrite E in K. tauto.
Qed.
Print Assumptions C39_safe.

(** If it was connected at most once and no fragment started where an earlier one
    of its place ended while another lay beyond it, destroying the client leaves
    nothing allocated. *)
Theorem C39_freed : forall a0 a1 a2 a3 a4 ops c h rs h1 h2 num,
  Forall op_ok ops ->
  hclient_create a0 a1 a2 a3 a4 heap_new = HDone c h -> c <> 0 ->
  mrun c ops h = HDone rs h1 ->
  (length (connections ops) <= 1)%nat -> (forall f, In f (connections ops) -> table_size f = num) ->
  orderly num (fun _ => None) rs ->
  hclient_destroy c h1 = HDone HE_SUCCESS h2 -> nothing_left h2.
Proof.
  intros a0 a1 a2 a3 a4 ops c h rs h1 h2 num OK E NC R LE NUM O D.
  pose proof (ran num E NC OK) as K. unfold hwp in K. rewrite R in K.
  destruct K as (g & L & <- & HH & _ & _ & _ & K). destruct (K LE NUM) as [_ K1]. rewrite (K1 O) in HH.
  pose proof (@hclient_destroy_spec False _ _ _ _ _ [] h1 HH) as K2. unfold hwp in K2. rewrite D in K2.
  now apply holds_nil.
Qed.
Print Assumptions C39_freed.

(** Whatever the fragments: if it was connected at most once, what destroying the
    client leaves behind is nothing but records of received ranges. *)
Theorem C39_remains : forall a0 a1 a2 a3 a4 ops c h rs h1 h2,
  Forall op_ok ops ->
  hclient_create a0 a1 a2 a3 a4 heap_new = HDone c h -> c <> 0 ->
  mrun c ops h = HDone rs h1 -> (length (connections ops) <= 1)%nat ->
  hclient_destroy c h1 = HDone HE_SUCCESS h2 ->
  forall a k, h_at h2 a = Some k -> exists b e last next, k = KNode b e last next.
Proof.
  intros a0 a1 a2 a3 a4 ops c h rs h1 h2 OK E NC R LE D a k A.
  assert (NUM : exists num, forall f, In f (connections ops) -> table_size f = num).
  { destruct (connections ops) as [|f [|f2 l]].
    - exists 0. intros f [].
    - exists (table_size f). intros f' [->|[]]. reflexivity.
    - cbn in LE. lia. }
  destruct NUM as [num NUM].
  pose proof (ran num E NC OK) as K. unfold hwp in K. rewrite R in K.
  destruct K as (g & L & <- & HH & _ & _ & _ & K). destruct (K LE NUM) as [K1 _].
  pose proof (@hclient_destroy_spec False _ _ _ _ _ L h1 HH) as K2. unfold hwp in K2. rewrite D in K2.
  destruct K2 as [_ (_ & X & _)]. apply X in A. rewrite Forall_forall in K1. apply K1 in A. cbn in A.
  destruct k; try easy. now exists b, e, last, next.
Qed.
Print Assumptions C39_remains.

(** The reassembly with pointers gives the results of the one without (Frag.v),
    of which C10 and C11 speak. *)
Theorem C39_same : forall a0 a1 a2 a3 a4 ops c h rs h1,
  Forall op_ok ops ->
  hclient_create a0 a1 a2 a3 a4 heap_new = HDone c h -> c <> 0 ->
  mrun c ops h = HDone rs h1 -> same_run None rs.
Proof.
  intros a0 a1 a2 a3 a4 ops c h rs h1 OK E NC R.
  pose proof (ran 0 E NC OK) as K. unfold hwp in K. rewrite R in K. now destruct K as (g & L & _ & _ & K & _).
Qed.
Print Assumptions C39_same.

(** ** C40 *)
Theorem C40_create : forall a0 a1 a2 a3 a4, exists c h,
  hclient_create a0 a1 a2 a3 a4 heap_new = HDone c h /\
  (c <> 0 <-> a0 = true /\ a1 = true /\ a2 = true /\ a3 = true /\ a4 = true) /\
  (c = 0 -> nothing_left h).
Proof.
  intros a0 a1 a2 a3 a4. pose proof (@hclient_create_spec False a0 a1 a2 a3 a4 [] heap_new holds_new) as K.
  unfold hwp in K. destruct (hclient_create a0 a1 a2 a3 a4 heap_new) as [c h|]; [|tauto].
  exists c, h. split; [reflexivity|]. destruct K as [(-> & A & K)|(P & A & K)].
  - split; [|intros _; now apply holds_nil]. split; [congruence|]. intros (-> & -> & -> & -> & ->). discriminate.
  - split; [|intros ->; lia]. split; [|lia]. intros _.
    destruct a0, a1, a2, a3, a4; try discriminate. auto.
Qed.
Print Assumptions C40_create.

(** Registration succeeds unless memory is refused, and in that case leaves the
    chain as it was: the chains hold the plugins that were registered, in the
    order of registration for ingress and in reverse for egress. *)
Theorem C40_plugins : forall a0 a1 a2 a3 a4 ops c h rs h1,
  Forall op_ok ops ->
  hclient_create a0 a1 a2 a3 a4 heap_new = HDone c h -> c <> 0 ->
  mrun c ops h = HDone rs h1 ->
  (exists n x i o, h_at h1 c = Some (KClient n x i o) /\
     hingress i h1 = HDone (registered true rs) h1 /\ hegress i h1 = HDone (rev (registered true rs)) h1 /\
     hingress o h1 = HDone (registered false rs) h1 /\ hegress o h1 = HDone (rev (registered false rs)) h1) /\
  (forall inside alloc p r, In (MPlugin inside alloc p, r) rs ->
     r = (HE_SUCCESS, None) \/ r = (HE_ERR_INIT_FAILED, None) /\ alloc = false).
Proof.
  intros a0 a1 a2 a3 a4 ops c h rs h1 OK E NC R.
  pose proof (ran 0 E NC OK) as K. unfold hwp in K. rewrite R in K.
  destruct K as (g & L & <- & HH & SR & PI & PO & _). split.
  - exists (o_n g), (o_x g), (cptr (o_in g)), (cptr (o_out g)). split.
    { destruct HH as (_ & X & _). apply X. now left. }
    assert (GO : forall l, (exists F, holds h1 (ccells l ++ F)) ->
       hingress (cptr l) h1 = HDone (plugins l) h1 /\ hegress (cptr l) h1 = HDone (rev (plugins l)) h1).
    { intros l [F HF]. split.
      - assert (K : hwp False (hingress (cptr l)) (fun r h' => r = plugins l /\ h' = h1) h1).
        { eapply hwp_loop; [exact HF|]. intros fuel LF. eapply hingress_rec_spec; [|exact HF|now split].
          rewrite app_length, ccells_length in LF. lia. }
        unfold hwp in K. destruct (hingress (cptr l) h1); [|tauto]. now destruct K as [-> ->].
      - assert (K : hwp False (hegress (cptr l)) (fun r h' => r = rev (plugins l) /\ h' = h1) h1).
        { eapply hwp_loop; [exact HF|]. intros fuel LF. eapply hegress_rec_spec; [|exact HF|now split].
          rewrite app_length, ccells_length in LF. lia. }
        unfold hwp in K. destruct (hegress (cptr l) h1); [|tauto]. now destruct K as [-> ->]. }
    rewrite <- PI, <- PO.
    destruct (GO (o_in g)) as [G1 G2]; [|destruct (GO (o_out g)) as [G3 G4]; [|tauto]].
    + eexists. eapply holds_perm; [|exact HH]. unfold own_cells, client_cells. cbn [app].
      instantiate (1 := (o_c g, KClient (o_n g) (o_x g) (cptr (o_in g)) (cptr (o_out g))) :: ncells (Some (o_n g, o_tab g, o_ssl g)) ++ xcells (Some (o_x g, o_wolf g)) ++ ccells (o_out g) ++ L).
      cbn [nptr xptr]. perm.
    + eexists. eapply holds_perm; [|exact HH]. unfold own_cells, client_cells. cbn [app].
      instantiate (1 := (o_c g, KClient (o_n g) (o_x g) (cptr (o_in g)) (cptr (o_out g))) :: ncells (Some (o_n g, o_tab g, o_ssl g)) ++ xcells (Some (o_x g, o_wolf g)) ++ ccells (o_in g) ++ L).
      cbn [nptr xptr]. perm.
  - clear - SR. revert SR. generalize (@None table). induction rs as [|[o r] rs IH]; [intros T _ ? ? ? ? []|].
    intros T (T' & S1 & S2) inside alloc p r' [[= -> ->]|J]; [exact (proj2 S1)|]. eapply IH; eauto.
Qed.
Print Assumptions C40_plugins.
(** Registering at a NULL chain, or a NULL plugin: refused, and nothing changes. *)
Theorem C40_plugins_null : forall alloc c p h, c = 0 \/ p = 0 -> hregister alloc c p h = HDone HE_ERR_NULL_POINTER h.
Proof.
  intros alloc c p h H. unfold hregister, hloop. cbn [hregister_rec].
  assert ((c =? 0) || (p =? 0) = true) as -> by (destruct H as [->| ->]; rewrite ?Z.eqb_refl; auto using orb_true_r). reflexivity.
Qed.
Print Assumptions C40_plugins_null.


(** ** Concrete lives *)
Definition frag_at (id off mf : Z) (n : nat) : mop := MFrag true true 100 100 id off mf (repeat 7 n).
Definition life (ops : list mop) : hout (list (Z * option bytes) * bool) :=
  match hclient_create true true true true true heap_new with
  | HFault f => HFault f
  | HDone c h =>
    match mrun c ops h with
    | HFault f => HFault f
    | HDone rs h1 => match hclient_destroy c h1 with
                     | HFault f => HFault f
                     | HDone _ h2 => HDone (map snd rs, forallb (fun k => match h_at h2 (Z.of_nat k) with None => true | _ => false end) (seq 0 (Z.to_nat (h_next h2)))) heap_new
                     end
    end
  end.
(** Two packets, one in order and one backwards, in one place after the other; two
    plugins: everything is freed. *)
Definition orderly_life : list mop :=
  [MPlugin true true 11; MPlugin true true 12; MPlugin true false 13; MConnect true true true true 4;
   frag_at 1 0 1 8; frag_at 1 8 1 8; frag_at 1 16 0 4; frag_at 2 16 0 4; frag_at 2 8 1 8; frag_at 3 0 1 8; frag_at 2 0 1 8].
Example C39_orderly_life :
  Forall op_ok orderly_life /\ (length (connections orderly_life) <= 1)%nat /\
  life orderly_life = HDone ([(HE_SUCCESS, None); (HE_SUCCESS, None); (HE_ERR_INIT_FAILED, None); (HE_SUCCESS, None);
    (HE_SUCCESS, None); (HE_SUCCESS, None); (HE_SUCCESS, Some (repeat 7 20)); (HE_SUCCESS, None); (HE_SUCCESS, None);
    (HE_SUCCESS, None); (HE_SUCCESS, Some (repeat 7 20))], true) heap_new /\
  exists c h rs h1, hclient_create true true true true true heap_new = HDone c h /\ c <> 0 /\
    mrun c orderly_life h = HDone rs h1 /\ orderly 4 (fun _ => None) rs /\ registered true rs = [11; 12].
Proof.
  split; [repeat constructor; cbn; lia|]. split; [cbn; lia|]. split; [vm_compute; reflexivity|].
  eexists _, _, _, _. split; [reflexivity|]. split; [discriminate|]. split; [vm_compute; reflexivity|].
  split; [|reflexivity].
  cbn [orderly strays]. 
  repeat match goal with |- _ /\ _ => split end; try tauto; intros (x & y & Ix & Iy & Ex & Ey); vm_compute in Ix, Iy; cbn in Ey, Ex;
    repeat match goal with H : _ \/ _ |- _ => destruct H | H : False |- _ => destruct H end; subst; cbn in *; lia.
Qed.

(** The full claims do not hold.  A peer can make the client lose memory with
    three fragments, every allocation succeeding: *)
Theorem C39_freed_refuted : exists ops c h rs h1 h2 a k,
  Forall op_ok ops /\ (length (connections ops) <= 1)%nat /\
  hclient_create true true true true true heap_new = HDone c h /\ c <> 0 /\
  mrun c ops h = HDone rs h1 /\ hclient_destroy c h1 = HDone HE_SUCCESS h2 /\ h_at h2 a = Some k.
Proof.
  exists [MConnect true true true true 4; frag_at 1 0 1 8; frag_at 1 104 1 8; frag_at 1 8 1 8].
  eexists _, _, _, _, _, 11, _. split; [repeat constructor; cbn; lia|]. split; [cbn; lia|].
  split; [reflexivity|]. split; [discriminate|]. split; [vm_compute; reflexivity|]. split; [vm_compute; reflexivity|].
  vm_compute. reflexivity.
Qed.
Print Assumptions C39_freed_refuted.
(** Connecting a second time loses the first connection's table and objects. *)
Theorem C39_reconnect_refuted : exists ops c h rs h1 h2 a b,
  Forall op_ok ops /\
  hclient_create true true true true true heap_new = HDone c h /\ c <> 0 /\
  mrun c ops h = HDone rs h1 /\ map snd rs = [(HE_SUCCESS, None); (HE_SUCCESS, None)] /\
  hclient_destroy c h1 = HDone HE_SUCCESS h2 /\ h_at h2 a = Some KObj /\ exists s, h_at h2 b = Some (KTable 4 s).
Proof.
  exists [MConnect true true true true 4; MConnect true true true true 4].
  eexists _, _, _, _, _, 6, 7. split; [repeat constructor; cbn; lia|].
  split; [reflexivity|]. split; [discriminate|]. split; [vm_compute; reflexivity|]. split; [reflexivity|].
  split; [vm_compute; reflexivity|]. split; [vm_compute; reflexivity|]. eexists. vm_compute. reflexivity.
Qed.
Print Assumptions C39_reconnect_refuted.
(** Memory for a received range that is refused is a NULL dereference. *)
Theorem C39_null_refuted : exists ops c h,
  Forall op_ok ops /\ hclient_create true true true true true heap_new = HDone c h /\ c <> 0 /\
  mrun c ops h = HFault FNull.
Proof.
  exists [MConnect true true true true 4; MFrag true false 100 100 1 0 1 (repeat 7 8)].
  eexists _, _. split; [repeat constructor; cbn; lia|]. split; [reflexivity|]. split; [discriminate|].
  vm_compute; reflexivity.
Qed.
Print Assumptions C39_null_refuted.
