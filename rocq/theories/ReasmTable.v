(** Reassembly in the fragment table: independence of slots, and the exact
    condition under which a packet cut into pieces is delivered. *)
From Verif Require Import Base Codes Frag FragSpec FragProofs ReasmProofs.
Unset Strict Implicit.

(** What the receiver does with one fragment when allocations succeed: store
    it; a completed packet is handed over and its entry deleted
    (msg_handlers.c:437-503; the handing over itself is in Conn.v). *)
Definition receive (t : table) (a : arrived) : res (option bytes * table) :=
  do r <- frag_store true true (a_now a) (a_now a) t (a_id a)
            (f_off (a_frag a)) (f_mf (a_frag a)) (f_data (a_frag a));
  let '(_, o, t) := r in
  match o with
  | Some p => Val (Some p, table_delete t (a_id a))
  | None => Val (None, t)
  end.

Fixpoint receive_all (t : table) (l : list arrived) : res (list (Z * option bytes) * table) :=
  match l with
  | [] => Val ([], t)
  | a :: l =>
    do r <- receive t a; let '(o, t) := r in
    do r <- receive_all t l; let '(os, t) := r in
    Val ((slot t (a_id a), o) :: os, t)
  end.

Definition table_wf (t : table) : Prop :=
  1 <= t_num t <= 65536 /\ forall i e, t_get t i = Some e -> entry_wf e.

Lemma slot_num t t' id : t_num t = t_num t' -> slot t id = slot t' id.
Proof. unfold slot; now intros ->. Qed.

Lemma slot_set t i o id : slot (t_set t i o) id = slot t id.
Proof. reflexivity. Qed.

Lemma entry_wf_zeros t : entry_wf (Entry (zeros HE_MAX_WIRE_MTU) t []).
Proof. split; [apply len_zeros; unfold HE_MAX_WIRE_MTU; lia|constructor]. Qed.

Lemma frag_store_total t now1 now2 id off mf data :
  table_wf t -> 0 <= off ->
  exists rc o t', frag_store true true now1 now2 t id off mf data = Val (rc, o, t') /\
    table_wf t' /\ t_num t' = t_num t /\
    (forall i, i <> slot t id -> t_get t' i = t_get t i) /\
    (forall p, o = Some p -> rc = HE_SUCCESS /\ len p <= 1500).
Proof.
  intros [TN TE] Ho. unfold frag_store.
  assert (exists e t1, table_find true now1 t id = (Some e, t1) /\ entry_wf e /\
            table_wf t1 /\ t_num t1 = t_num t /\
            (forall i, i <> slot t id -> t_get t1 i = t_get t i)) as (e & t1 & -> & We & Wt & Nt & Gt).
  { unfold table_find. destruct (t_get t (slot t id)) as [e|] eqn:G.
    - exists e, t. repeat split; auto; try lia; eapply TE; eauto.
    - eexists _, _; split; [reflexivity|]. split; [apply entry_wf_zeros|].
      split; [split; [exact TN|]|].
      + cbn [t_set t_get]. intros i e. destruct (i =? slot t id); [|apply TE].
        intros [= <-]. apply entry_wf_zeros.
      + split; [reflexivity|]. intros i Hi. cbn [t_set t_get].
        destruct (i =? slot t id) eqn:Q; [lia|reflexivity]. }
  set (e1 := if _ <? _ then _ else e).
  assert (entry_wf e1) as We1.
  { unfold e1. destruct (_ <? _); auto. apply entry_wf_zeros. }
  clearbody e1.
  destruct (entry_update_total data mf We1 Ho) as (rc & a & e' & -> & We' & _ & Ha & _).
  cbn [rbind].
  assert (table_wf (t_set t1 (slot t1 id) (Some e'))) as Wt2.
  { destruct Wt as [A B]. split; [exact A|]. intros i x. cbn [t_set t_get].
    destruct (i =? slot t1 id); [|apply B]. now intros [= <-]. }
  assert (forall i, i <> slot t id -> t_get (t_set t1 (slot t1 id) (Some e')) i = t_get t i) as G2.
  { intros i Hi. cbn [t_set t_get]. rewrite (slot_num (t' := t) id Nt).
    destruct (i =? slot t id) eqn:Q; [lia|]. now apply Gt. }
  destruct (negb (rc =? HE_SUCCESS)).
  { eexists _, _, _; split; [reflexivity|]. split; [exact Wt2|]. split; [exact Nt|]. split; [exact G2|discriminate]. }
  destruct a.
  - destruct (Ha eq_refl) as [-> N]. destruct (fe_nodes e') as [|h tl] eqn:En; [congruence|].
    destruct We' as [L F]. rewrite En in F. inversion F as [|h' t' [A1 A2] Ft]; subst.
    rewrite ldn_ok by lia. cbn [rbind].
    eexists _, _, _; split; [reflexivity|]. split; [exact Wt2|]. split; [exact Nt|].
    split; [exact G2|]. intros q [= <-]. split; [reflexivity|]. rewrite len_slice; lia.
  - eexists _, _, _; split; [reflexivity|]. split; [exact Wt2|]. split; [exact Nt|]. split; [exact G2|discriminate].
Qed.

(** ** One slot at a time *)
Definition slot_step (o : option entry) (a : arrived) : res (option bytes * option entry) :=
  let e := match o with Some e => e | None => Entry (zeros HE_MAX_WIRE_MTU) (a_now a) [] end in
  let e := if HE_FRAG_TTL <? a_now a - fe_time e
           then Entry (fe_data (entry_reset e)) (a_now a) (fe_nodes (entry_reset e)) else e in
  do r <- entry_update true e (f_data (a_frag a)) (f_off (a_frag a)) (f_mf (a_frag a));
  let '(rc, asm, e) := r in
  if negb (rc =? HE_SUCCESS) then Val (None, Some e)
  else if asm then
    match fe_nodes e with
    | h :: _ => do p <- ldn (fe_data e) 0 (n_end h); Val (Some p, None)
    | [] => Ub UB_null
    end
  else Val (None, Some e).

Fixpoint slot_run (o : option entry) (l : list arrived) : res (list (option bytes) * option entry) :=
  match l with
  | [] => Val ([], o)
  | a :: l =>
    do r <- slot_step o a; let '(p, o) := r in
    do r <- slot_run o l; let '(ps, o) := r in
    Val (p :: ps, o)
  end.

Lemma receive_slot t a p o :
  slot_step (t_get t (slot t (a_id a))) a = Val (p, o) ->
  exists t', receive t a = Val (p, t') /\ t_num t' = t_num t /\
    t_get t' (slot t (a_id a)) = o /\
    forall i, i <> slot t (a_id a) -> t_get t' i = t_get t i.
Proof.
  unfold slot_step, receive, frag_store, table_find.
  set (s := slot t (a_id a)).
  intros E.
  destruct (t_get t s) as [e|] eqn:G.
  - destruct (entry_update _ _ _ _ _) as [[[rc asm] e']|u]; [|discriminate]. cbn [rbind] in *.
    destruct (negb (rc =? HE_SUCCESS)).
    { injection E as <- <-. eexists; split; [reflexivity|]. rewrite ?slot_set. cbn [t_set t_num t_get].
      fold s. rewrite Z.eqb_refl. repeat split; auto. intros i Hi. destruct (i =? s) eqn:Q; [lia|auto]. }
    destruct asm.
    + destruct (fe_nodes e') as [|h tl]; [discriminate|].
      destruct (ldn _ _ _) as [q|u]; [|discriminate]. cbn [rbind] in *. injection E as <- <-.
      eexists; split; [reflexivity|]. unfold table_delete. rewrite !slot_set. fold s. cbn [t_set t_num t_get]. rewrite Z.eqb_refl.
      repeat split; auto. intros i Hi. destruct (i =? s) eqn:Q; [lia|auto].
    + injection E as <- <-. eexists; split; [reflexivity|]. rewrite ?slot_set. cbn [t_set t_num t_get].
      fold s. rewrite Z.eqb_refl. repeat split; auto. intros i Hi. destruct (i =? s) eqn:Q; [lia|auto].
  - destruct (entry_update _ _ _ _ _) as [[[rc asm] e']|u]; [|discriminate]. cbn [rbind] in *.
    assert (slot (t_set t s (Some (Entry (zeros HE_MAX_WIRE_MTU) (a_now a) []))) (a_id a) = s) as Es
      by reflexivity.
    destruct (negb (rc =? HE_SUCCESS)).
    { injection E as <- <-. eexists; split; [reflexivity|]. cbn [t_set t_num t_get].
      rewrite Es, Z.eqb_refl. repeat split; auto. intros i Hi. destruct (i =? s) eqn:Q; [lia|auto]. }
    destruct asm.
    + destruct (fe_nodes e') as [|h tl]; [discriminate|].
      destruct (ldn _ _ _) as [q|u]; [|discriminate]. cbn [rbind] in *. injection E as <- <-.
      eexists; split; [reflexivity|]. unfold table_delete. rewrite !slot_set. fold s. cbn [t_set t_num t_get]. rewrite Z.eqb_refl.
      repeat split; auto. intros i Hi. destruct (i =? s) eqn:Q; [lia|auto].
    + injection E as <- <-. eexists; split; [reflexivity|]. cbn [t_set t_num t_get].
      rewrite Es, Z.eqb_refl. repeat split; auto. intros i Hi. destruct (i =? s) eqn:Q; [lia|auto].
Qed.

Definition slot_wf (o : option entry) : Prop := forall e, o = Some e -> entry_wf e.

Lemma slot_step_total o a :
  slot_wf o -> 0 <= f_off (a_frag a) ->
  exists p o', slot_step o a = Val (p, o') /\ slot_wf o'.
Proof.
  intros W Ho. unfold slot_step.
  set (e := match o with Some e => e | None => _ end).
  assert (entry_wf e) as We by (unfold e; destruct o; [now apply W|apply entry_wf_zeros]).
  clearbody e.
  set (e1 := if _ <? _ then _ else e).
  assert (entry_wf e1) as We1 by (unfold e1; destruct (_ <? _); auto; apply entry_wf_zeros).
  clearbody e1.
  destruct (entry_update_total (f_data (a_frag a)) (f_mf (a_frag a)) We1 Ho)
    as (rc & b & e' & -> & We' & _ & Ha & _). cbn [rbind].
  destruct (negb (rc =? HE_SUCCESS)).
  { eexists _, _; split; [reflexivity|]. now intros x [= <-]. }
  destruct b.
  - destruct (Ha eq_refl) as [-> N]. destruct (fe_nodes e') as [|h tl] eqn:En; [congruence|].
    destruct We' as [L F]. rewrite En in F. inversion F as [|h' t' [A1 A2] Ft]; subst.
    rewrite ldn_ok by lia. cbn [rbind]. eexists _, _; split; [reflexivity|]. discriminate.
  - eexists _, _; split; [reflexivity|]. now intros x [= <-].
Qed.

Lemma slot_run_total l : forall o, slot_wf o -> Forall (fun a => 0 <= f_off (a_frag a)) l ->
  exists ps o', slot_run o l = Val (ps, o') /\ slot_wf o'.
Proof.
  induction l as [|a l IH]; intros o W F; cbn [slot_run]; [eauto|].
  inversion F; subst. destruct (slot_step_total (a := a) W) as (p & o1 & -> & W1); auto.
  cbn [rbind]. destruct (IH o1 W1) as (ps & o2 & -> & W2); auto. cbn [rbind]. eauto.
Qed.

(** A whole reception, seen from one slot, is a reception of the fragments of
    that slot alone. *)
Lemma receive_all_slots l : forall t, (forall i, slot_wf (t_get t i)) ->
  Forall (fun a => 0 <= f_off (a_frag a)) l ->
  exists os t', receive_all t l = Val (os, t') /\ t_num t' = t_num t /\
    forall s, slot_run (t_get t s) (filter (fun a => slot t (a_id a) =? s) l) =
              Val (map snd (filter (fun o => fst o =? s) os), t_get t' s).
Proof.
  induction l as [|a l IH]; intros t W F; cbn [receive_all].
  { eexists _, _; split; [reflexivity|]. split; reflexivity. }
  inversion F as [|a' l' Ha Fl]; subst.
  destruct (slot_step_total (a := a) (W (slot t (a_id a))) Ha) as (p & o & E & Wo).
  destruct (receive_slot E) as (t1 & -> & N1 & G1 & O1). cbn [rbind].
  assert (forall i, slot_wf (t_get t1 i)) as W1.
  { intros i. destruct (Z.eq_dec i (slot t (a_id a))) as [->|Ne]; [now rewrite G1|].
    rewrite O1 by auto. apply W. }
  destruct (IH t1 W1 Fl) as (os & t2 & -> & N2 & H2). cbn [rbind].
  eexists _, _; split; [reflexivity|]. split; [congruence|].
  intros s. cbn [filter fst]. rewrite (slot_num (t := t2) (t' := t) (a_id a)) by congruence.
  specialize (H2 s).
  assert (filter (fun x => slot t1 (a_id x) =? s) l = filter (fun x => slot t (a_id x) =? s) l) as EF.
  { apply filter_ext. intros x. now rewrite (slot_num (t := t1) (t' := t) (a_id x)). }
  rewrite EF in H2.
  destruct (slot t (a_id a) =? s) eqn:Q.
  - assert (slot t (a_id a) = s) as Es by lia. cbn [slot_run map snd].
    rewrite <- Es in *. rewrite E. cbn [rbind]. rewrite G1 in H2. rewrite H2. reflexivity.
  - rewrite <- (O1 s) by lia. exact H2.
Qed.

(** ** The pieces of one packet *)
Section Pieces.
Variables (cs : list bytes) (p : bytes).
Hypothesis CUT : cut_of cs p 1500.

Definition B (i : nat) : Z := len (concat (firstn i cs)).
Definition N := length cs.

Lemma firstn_S_nth {A} (l : list A) i d :
  (i < length l)%nat -> firstn (S i) l = firstn i l ++ [nth i l d].
Proof.
  revert i; induction l as [|x l IH]; intros i H; cbn [length] in H; [lia|].
  destruct i; [reflexivity|]. cbn [firstn nth app]. f_equal. apply IH; lia.
Qed.

Lemma B_S i : (i < N)%nat -> B (S i) = B i + len (nth i cs []).
Proof.
  intros H. unfold B. rewrite (@firstn_S_nth bytes _ _ []) by exact H.
  rewrite concat_app, len_app. cbn [concat]. now rewrite app_nil_r.
Qed.

Lemma nth_pos i : (i < N)%nat -> 0 < len (nth i cs []).
Proof.
  intros H. destruct CUT as (_ & F & _). rewrite Forall_forall in F.
  assert (nth i cs [] <> []) as Ne by (apply F, nth_In, H).
  destruct (nth i cs []); [congruence|]. rewrite len_cons. pose proof (len_nonneg b); lia.
Qed.

Lemma B_zero : B 0 = 0. Proof. reflexivity. Qed.
Lemma B_mono i j : (i < j <= N)%nat -> B i < B j.
Proof.
  intros [L1 L2]. induction j as [|j IH]; [lia|].
  rewrite B_S by lia. pose proof (nth_pos (i := j)).
  destruct (Nat.eq_dec i j) as [->|]; [lia|]. specialize (IH ltac:(lia) ltac:(lia)). lia.
Qed.
Lemma B_N : B N = len p.
Proof. unfold B, N. rewrite firstn_all. destruct CUT as (-> & _). reflexivity. Qed.
Lemma B_N1500 : B N <= 1500.
Proof. rewrite B_N. apply CUT. Qed.
Lemma N_2 : (2 <= N)%nat. Proof. apply CUT. Qed.

Lemma piece_off i : f_off (piece cs i) = B i. Proof. reflexivity. Qed.
Lemma piece_len i : (i < N)%nat -> len (f_data (piece cs i)) = B (S i) - B i.
Proof. intros. rewrite B_S by auto. cbn [piece f_data]. lia. Qed.
Lemma piece_mf i : f_mf (piece cs i) = mf_of N i. Proof. reflexivity. Qed.

Lemma p_split i : (i < N)%nat ->
  p = concat (firstn i cs) ++ nth i cs [] ++ concat (skipn (S i) cs).
Proof.
  intros H. destruct CUT as (<- & _).
  rewrite <- (firstn_skipn (S i) cs) at 1.
  rewrite (@firstn_S_nth bytes _ _ []) by exact H.
  rewrite !concat_app. cbn [concat]. rewrite app_nil_r, <- app_assoc. reflexivity.
Qed.

Lemma piece_carries i pos b :
  (i < N)%nat -> carries (piece cs i) pos b -> nth (Z.to_nat pos) p 0 = b.
Proof.
  intros H [C1 C2]. rewrite piece_off, piece_len in C1 by auto.
  rewrite B_S in C1 by auto. rewrite (p_split H). unfold B, len in *.
  rewrite app_nth2 by lia. rewrite app_nth1 by lia.
  rewrite <- C2. cbn [piece f_data f_off]. unfold len. f_equal. lia.
Qed.

Definition in_list (l : list nat) : nat -> Prop := fun i => In i l.

(** [pre] is the reverse of what was received so far. *)
Definition state (t0 : Z) (pre : list nat) (e : entry) : Prop :=
  fe_time e = t0 /\ entry_inv (map (piece cs) pre) e /\
  ((single B N (in_list pre) (fe_nodes e) /\ forall k, consecutive (firstn k (rev pre))) \/
   (broken B N (in_list pre) (fe_nodes e) /\ ~ forall k, consecutive (firstn k (rev pre)))).

Lemma consecutive_nil : consecutive [].
Proof. exists 0%nat, 0%nat. intros i; cbn; lia. Qed.

Lemma firstn_snoc {A} (l : list A) x k :
  firstn k (l ++ [x]) = if (k <=? length l)%nat then firstn k l else l ++ [x].
Proof.
  destruct (Nat.leb_spec k (length l)).
  - rewrite firstn_app. replace (k - length l)%nat with 0%nat by lia.
    cbn [firstn]. now rewrite app_nil_r.
  - rewrite firstn_all2; [reflexivity|]. rewrite app_length; cbn [length]; lia.
Qed.

Lemma grows_snoc l x :
  (forall k, consecutive (firstn k (l ++ [x]))) <->
  (forall k, consecutive (firstn k l)) /\ consecutive (l ++ [x]).
Proof.
  split.
  - intros H. split; intros.
    + destruct (Nat.leb_spec k (length l)) as [L|L].
      * specialize (H k). rewrite firstn_snoc in H.
        destruct (Nat.leb_spec k (length l)); [exact H|lia].
      * specialize (H (length l)). rewrite firstn_snoc, Nat.leb_refl, firstn_all in H.
        rewrite firstn_all2 by lia. exact H.
    + specialize (H (S (length l))). rewrite firstn_snoc in H.
      destruct (Nat.leb_spec (S (length l)) (length l)); [lia|exact H].
  - intros [H1 H2] k. rewrite firstn_snoc. destruct (_ <=? _)%nat; auto.
Qed.

Lemma consecutive_iff l l' : (forall i, In i l <-> In i l') -> consecutive l -> consecutive l'.
Proof. intros H (a & b & F). exists a, b. intros i. rewrite <- H. apply F. Qed.

Lemma single_ext R R' l : (forall i, R i <-> R' i) -> single B N R l -> single B N R' l.
Proof.
  intros H (a & b & H1 & H2 & H3). exists a, b. repeat split; auto; try lia; intros;
  [apply H, H3; auto|apply H3, H; auto|apply H3, H; auto].
Qed.
Lemma broken_ext R R' l : (forall i, R i <-> R' i) -> broken B N R l -> broken B N R' l.
Proof.
  intros H (H1 & H2 & h & t & f & H3 & H4 & H5 & H6). split; auto. split.
  - eapply Forall_impl; [|exact H2]. intros c (a & b & A1 & A2 & A3 & A4 & A5).
    exists a, b; repeat split; auto; try lia. intros; apply H; auto.
  - exists h, t, f; repeat split; auto. now apply H.
Qed.

Lemma piece_frag_ok i : (i < N)%nat -> frag_ok (piece cs i).
Proof.
  intros H. split; rewrite piece_off.
  - apply (@B_nonneg B N B_zero (@B_mono) N_2). lia.
  - rewrite piece_len by auto. pose proof (B_max (@B_mono) B_N1500 N_2 (i := S i)). lia.
Qed.

(** One more piece. *)
Lemma step_state t0 pre e i rc asm e' :
  state t0 pre e -> (i < N)%nat -> ~ In i pre -> pre <> [] ->
  entry_update true e (f_data (piece cs i)) (f_off (piece cs i)) (f_mf (piece cs i))
    = Val (rc, asm, e') ->
  rc = HE_SUCCESS /\ state t0 (i :: pre) e' /\
  (asm = true <-> (forall j, (j < N)%nat -> In j (i :: pre)) /\
                  forall k, consecutive (firstn k (rev (i :: pre)))) /\
  (asm = true -> exists h tl, fe_nodes e' = h :: tl /\ n_end h = len p).
Proof.
  intros (T & I & S) Hi Ni Np E. pose proof E as E0.
  assert (forall j, add (in_list pre) i j <-> in_list (i :: pre) j) as EA
    by (intros j; unfold add, in_list; cbn [In]; intuition congruence).
  unfold entry_update in E. rewrite piece_len, piece_off in E by auto.
  change HE_MAX_WIRE_MTU with 1500 in E.
  pose proof (B_max (@B_mono) B_N1500 N_2 (i := Datatypes.S i) ltac:(lia)) as M1.
  destruct (1500 <? _) eqn:Q; [lia|].
  assert (exists h t, fe_nodes e = h :: t) as (h & t & En).
  { destruct S as [[(a & b & _ & -> & _) _]|[(_ & _ & h & t & f & -> & _) _]]; eauto. }
  rewrite En in E. rewrite <- En in E.
  assert (fe_nodes e <> []) as Ne by (rewrite En; discriminate).
  destruct (walk _ _ _ _ _ _ _) as [[l ok]|] eqn:Ew; [|discriminate]. cbn [rbind] in E.
  assert (ok = true /\ ((single B N (in_list (i :: pre)) l /\
            forall k, consecutive (firstn k (rev (i :: pre)))) \/
           (broken B N (in_list (i :: pre)) l /\
            ~ forall k, consecutive (firstn k (rev (i :: pre)))))) as [-> S'].
  { cbn [rev]. destruct S as [[S G]|[S G]].
    - destruct (step_single B_zero (@B_mono) B_N1500 N_2 Hi Ni S Ew) as [-> [S'|[S' C']]];
        split; auto; [left|right].
      + split; [eapply single_ext; [exact EA|exact S']|].
        apply grows_snoc. split; auto.
        destruct S' as (a & b & _ & _ & F). exists a, b. intros j. rewrite F.
        rewrite EA. unfold in_list. rewrite in_app_iff, <- in_rev. cbn [In]. tauto.
      + split; [eapply broken_ext; [exact EA|exact S']|].
        intros H. apply grows_snoc in H as [_ (a & b & F)].
        apply C'. exists a, b. intros j. rewrite <- F, EA. unfold in_list.
        rewrite in_app_iff, <- in_rev. cbn [In]. tauto.
    - destruct (step_broken B_zero (@B_mono) B_N1500 N_2 Hi Ni S Ew) as [-> S'].
      split; auto. right. split; [eapply broken_ext; [exact EA|exact S']|].
      intros H. apply grows_snoc in H as [H _]. contradiction. }
  destruct (fe_nodes e) as [|h0 t0'] eqn:En0; [congruence|].
  destruct (stn _ _ _) as [d|] eqn:Es; [|discriminate]. cbn [rbind] in E.
  destruct l as [|h' l']; [discriminate|]. injection E as <- <- <-.
  split; auto. split.
  { split; [exact T|]. split; [|exact S'].
    cbn [map]. eapply update_inv; [apply piece_frag_ok; auto|exact I|exact E0|reflexivity]. }
  destruct S' as [[S' G']|[S' G']].
  - destruct (single_assembled B_zero (@B_mono) N_2 S') as (h1 & t1 & E1 & A1 & A2).
    injection E1 as <- <-. split.
    + rewrite A1. unfold in_list. tauto.
    + intros A. exists h', l'. split; auto. rewrite <- B_N. apply A2, A1, A.
  - destruct (broken_not_assembled (@B_mono) N_2 S') as (h1 & t1 & E1 & A1).
    injection E1 as <- <-. rewrite A1. split; [|discriminate].
    split; [discriminate|]. intros [_ C]. contradiction.
Qed.
End Pieces.

Section Deliver.
Variables (cs : list bytes) (p : bytes).
Hypothesis CUT : cut_of cs p 1500.
Let N := length cs.

Lemma state_data t0 pre e :
  Forall (fun i => (i < N)%nat) pre ->
  state cs t0 pre e -> (forall j, (j < N)%nat -> In j pre) ->
  ldn (fe_data e) 0 (len p) = Val p.
Proof.
  intros F (T & [[L D] _] & _) All.
  assert (len p <= 1500) as Lp by apply CUT. pose proof (len_nonneg p).
  rewrite ldn_ok by lia. f_equal. unfold slice. cbn [Z.to_nat skipn].
  apply nth_ext with (d := 0) (d' := 0).
  { rewrite firstn_length. unfold len in *. lia. }
  rewrite firstn_length. intros k Hk. unfold len in *.
  assert (k < length p)%nat as Hk' by lia.
  rewrite <- (firstn_skipn (Z.to_nat (Z.of_nat (length p))) (fe_data e)) in D.
  specialize (D (Z.of_nat k) ltac:(lia)). rewrite Nat2Z.id in D.
  rewrite app_nth1 in D by (rewrite firstn_length; lia). rewrite D.
  destruct (newest (map (piece cs) pre) (Z.of_nat k)) as [b|] eqn:Eb.
  - destruct (newest_carries Eb) as (g & I & C).
    apply in_map_iff in I as (i & <- & I). rewrite Forall_forall in F.
    rewrite <- (piece_carries CUT (F i I) C). now rewrite Nat2Z.id.
  - exfalso.
    (* some piece carries position k *)
    assert (exists i, (i < N)%nat /\ B cs i <= Z.of_nat k < B cs (S i)) as (i & Hi & Bi).
    { assert (forall m, (m <= N)%nat -> Z.of_nat k < B cs m ->
              exists i, (i < m)%nat /\ B cs i <= Z.of_nat k < B cs (S i)) as G.
      { induction m as [|m IH]; intros Hm Hb; [unfold B in Hb; cbn in Hb; lia|].
        destruct (Z.lt_ge_cases (Z.of_nat k) (B cs m)) as [Lk|Lk].
        - destruct (IH ltac:(lia) Lk) as (i & ? & ?). exists i; split; [lia|auto].
        - exists m; split; [lia|auto]. }
      apply (G N); [auto|]. unfold N. change (length cs) with (ReasmTable.N cs).
      rewrite (B_N CUT). unfold len; lia. }
    clear -All Hi Bi Eb.
    assert (forall l, In i l -> newest (map (piece cs) l) (Z.of_nat k) <> None) as G.
    { induction l as [|j l IH]; intros I; [contradiction|]. cbn [map newest].
      destruct (_ && _) eqn:Q; [discriminate|]. destruct I as [->|I]; [|auto].
      rewrite piece_off, (piece_len (cs := cs)) in Q by exact Hi. lia. }
    exact (G pre (All i Hi) Eb).
Qed.

Lemma first_state now i o :
  (i < N)%nat -> o = None ->
  exists e, slot_step o (Arrived now 0 (piece cs i)) = Val (None, Some e) /\ state cs now [i] e.
Proof.
  intros Hi ->. unfold slot_step. cbn [a_now a_frag fe_time].
  rewrite Z.sub_diag. change (HE_FRAG_TTL <? 0) with false. cbv iota.
  destruct (piece_frag_ok CUT Hi) as [F1 F2].
  pose proof (len_nonneg (f_data (piece cs i))) as Hn.
  assert (exists d, stn (zeros 1500) (f_off (piece cs i)) (f_data (piece cs i)) = Val d) as [d Ed].
  { eexists. apply stn_ok; [lia|]. rewrite len_zeros; lia. }
  assert (entry_update true (Entry (zeros HE_MAX_WIRE_MTU) now []) (f_data (piece cs i))
            (f_off (piece cs i)) (f_mf (piece cs i)) =
          Val (HE_SUCCESS, false,
               Entry d now [nd_of (f_off (piece cs i)) (len (f_data (piece cs i))) (f_mf (piece cs i))]))
    as E.
  { unfold entry_update. change HE_MAX_WIRE_MTU with 1500.
    destruct (1500 <? _) eqn:Q; [lia|]. unfold new_node. cbn [fe_nodes fe_data fe_time rbind].
    rewrite Ed. cbn [rbind]. now rewrite !u16_small by lia. }
  rewrite E. cbn [rbind]. change (negb (HE_SUCCESS =? HE_SUCCESS)) with false. cbv iota.
  eexists; split; [reflexivity|].
  split; [reflexivity|]. split.
  { eapply (@update_inv [] (entry0 now)); [apply (piece_frag_ok CUT Hi)| |exact E|reflexivity].
    eapply fed_inv; [constructor|constructor]. }
  left. split.
  - exists i, (S i). split; [split; [lia|exact Hi]|]. cbn [fe_nodes]. split.
    + unfold nd_of. rewrite piece_off, (piece_len (cs := cs)), piece_mf, mf0_iff by first [exact Hi|exact (N_2 CUT)].
      f_equal. f_equal. lia.
    + intros j; unfold in_list; cbn [In]; lia.
  - intros k. destruct k as [|[|k]]; cbn [rev app firstn]; [apply consecutive_nil| |];
      exists i, (S i); intros j; cbn [In]; lia.
Qed.

Lemma slot_step_id o now id f : slot_step o (Arrived now id f) = slot_step o (Arrived now 0 f).
Proof. reflexivity. Qed.

Lemma slot_run_state t0 : forall post pre e l,
  state cs t0 pre e -> pre <> [] -> post <> [] ->
  arrival N (rev pre ++ post) ->
  map a_frag l = map (piece cs) post -> Forall (fun a => a_now a - t0 <= 64) l ->
  (grows_consecutively (rev pre ++ post) ->
     slot_run (Some e) l = Val (repeat None (length post - 1) ++ [Some p], None)) /\
  (~ grows_consecutively (rev pre ++ post) ->
     exists o', slot_run (Some e) l = Val (repeat None (length post), o')).
Proof.
  induction post as [|i post IH]; intros pre e l S Np Nq A Ml Ft; [congruence|].
  destruct l as [|a l]; [discriminate|]. cbn [map] in Ml. injection Ml as Ea Ml.
  inversion Ft as [|a' l' Ta Tl]; subst.
  destruct A as [ND AL].
  assert (i < N)%nat as Hi by (apply AL, in_or_app; right; now left).
  assert (~ In i pre) as Ni.
  { intros I. apply NoDup_remove_2 in ND. apply ND, in_or_app; left. now apply -> in_rev. }
  cbn [slot_run]. destruct a as [now id f]; cbn [a_frag a_now] in *. subst f.
  rewrite slot_step_id.
  assert (fe_time e = t0) as Te by apply S.
  assert (exists rc asm e', entry_update true e (f_data (piece cs i)) (f_off (piece cs i))
            (f_mf (piece cs i)) = Val (rc, asm, e')) as (rc & asm & e' & Eu).
  { destruct S as (_ & [[L _] C] & _).
    destruct (@entry_update_total e (f_data (piece cs i)) (f_off (piece cs i)) (f_mf (piece cs i)))
      as (rc & asm & e' & Eu & _); eauto.
    - split; auto. eapply Forall_impl; [|exact C]. intros c (X & Y & Z); split; auto.
    - apply (piece_frag_ok CUT Hi). }
  destruct (step_state CUT S Hi Ni Np Eu) as (-> & S' & Asm & Hd).
  unfold slot_step at 1 2. cbn [a_now a_frag]. rewrite Te.
  destruct (HE_FRAG_TTL <? now - t0) eqn:Q; [unfold HE_FRAG_TTL in Q; lia|].
  rewrite Eu. cbn [rbind]. change (negb (HE_SUCCESS =? HE_SUCCESS)) with false. cbv iota.
  cbn [rev] in Asm.
  destruct post as [|i' post].
  - destruct l; [|discriminate]. cbn [length Nat.sub repeat app slot_run].
    assert (forall j, (j < N)%nat -> In j (i :: pre)) as All.
    { intros j Hj. apply AL in Hj. rewrite in_app_iff, <- in_rev in Hj. cbn [In] in *. tauto. }
    assert (Forall (fun j => (j < N)%nat) (i :: pre)) as FN.
    { apply Forall_forall. intros j Hj. apply AL. rewrite in_app_iff, <- in_rev. cbn [In] in *. tauto. }
    split.
    + intros G. assert (asm = true) as -> by (apply Asm; split; [exact All|exact G]).
      destruct (Hd eq_refl) as (h & tl & En & Eh). rewrite En, Eh.
      rewrite (state_data FN S' All). reflexivity.
    + intros G. destruct asm; [exfalso; apply G; exact (proj2 (proj1 Asm eq_refl))|].
      cbn [rbind]. eexists; reflexivity.
  - assert (asm = false) as ->.
    { destruct asm; auto. destruct Asm as [Asm _]. specialize (Asm eq_refl) as [Asm _].
      assert (In i' (i :: pre)) as I by (apply Asm, AL, in_or_app; right; right; now left).
      exfalso. apply NoDup_remove_1 in ND as ND1. apply NoDup_remove_2 in ND1.
      destruct I as [->|I].
      - apply NoDup_remove_2 in ND. apply ND, in_or_app; right; now left.
      - apply ND1, in_or_app; left. now apply -> in_rev. }
    cbn [rbind].
    destruct (IH (i :: pre) e' l) as [IH1 IH2]; auto; try discriminate.
    { cbn [rev]. rewrite <- app_assoc. split; auto. }
    cbn [rev] in IH1, IH2. rewrite <- app_assoc in IH1, IH2. cbn [app] in IH1, IH2.
    split.
    + intros G. rewrite (IH1 G). cbn [rbind length Nat.sub repeat app].
      now rewrite Nat.sub_0_r.
    + intros G. destruct (IH2 G) as [o' ->]. cbn [rbind length repeat]. eexists; reflexivity.
Qed.

Lemma slot_run_pieces arr l :
  arrival N arr -> map a_frag l = map (piece cs) arr ->
  (forall a, In a l -> a_now a - a_now (hd (Arrived 0 0 (piece cs 0)) l) <= 64) ->
  (grows_consecutively arr ->
     slot_run None l = Val (repeat None (N - 1) ++ [Some p], None)) /\
  (~ grows_consecutively arr ->
     exists o', slot_run None l = Val (repeat None N, o')).
Proof.
  intros A Ml Ft. pose proof (N_2 CUT) as N2. change (ReasmTable.N cs) with N in N2.
  assert (length arr = N) as LA.
  { destruct A as [ND AL]. apply Nat.le_antisymm.
    - rewrite <- (seq_length N 0). apply NoDup_incl_length; auto.
      intros j Hj. apply in_seq. apply AL in Hj. lia.
    - rewrite <- (seq_length N 0). apply NoDup_incl_length; [apply seq_NoDup|].
      intros j Hj. apply AL. apply in_seq in Hj. lia. }
  destruct arr as [|i [|i' arr]]; cbn [length] in LA; try lia.
  destruct l as [|a l]; [discriminate|]. cbn [map] in Ml. injection Ml as Ea Ml.
  destruct a as [now id f]; cbn [a_frag] in Ea; subst f. cbn [hd a_now] in Ft.
  assert (i < N)%nat as Hi by (apply A; now left).
  destruct (first_state now Hi eq_refl) as (e & E & S).
  assert (arrival N (rev [i] ++ i' :: arr)) as A' by exact A.
  destruct (@slot_run_state now (i' :: arr) [i] e l S) as [H1 H2]; auto; try discriminate.
  { apply Forall_forall. intros a Ha. apply Ft. now right. }
  cbn [slot_run]. rewrite slot_step_id, E. cbn [rbind].
  cbn [rev app] in H1, H2. cbn [length] in *.
  replace N with ((2 + length arr)%nat) by lia.
  split.
  - intros G. rewrite (H1 G). cbn [rbind Nat.sub repeat app]. now rewrite !Nat.sub_0_r.
  - intros G. destruct (H2 G) as [o' ->]. cbn [rbind repeat]. eexists; reflexivity.
Qed.
End Deliver.

(** The same in a table that receives other fragments in between. *)
Lemma reassembly_in_table cs p arr t L s :
  cut_of cs p 1500 -> arrival (length cs) arr ->
  (forall i, slot_wf (t_get t i)) -> t_get t s = None ->
  Forall (fun a => 0 <= f_off (a_frag a)) L ->
  (let l := filter (fun a => slot t (a_id a) =? s) L in
   map a_frag l = map (piece cs) arr /\
   forall a, In a l -> a_now a - a_now (hd (Arrived 0 0 (piece cs 0)) l) <= 64) ->
  exists os t', receive_all t L = Val (os, t') /\
  (grows_consecutively arr ->
     map snd (filter (fun o => fst o =? s) os) = repeat None (length cs - 1) ++ [Some p] /\
     t_get t' s = None) /\
  (~ grows_consecutively arr ->
     map snd (filter (fun o => fst o =? s) os) = repeat None (length cs)).
Proof.
  intros CUT A W Gs F [Ml Ft].
  destruct (receive_all_slots W F) as (os & t' & E & _ & H).
  exists os, t'. split; [exact E|]. specialize (H s). rewrite Gs in H.
  destruct (slot_run_pieces CUT A Ml Ft) as [H1 H2]. split.
  - intros G. rewrite (H1 G) in H. injection H as H H'. auto.
  - intros G. destruct (H2 G) as [o' E']. rewrite E' in H. now injection H.
Qed.
