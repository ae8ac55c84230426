(** Fragments among the messages received: what is delivered. *)
From Verif Require Import Base Codes Ctx Config Mss MssSpec Frag FragSpec FragProofs ReasmTable FragHistory
  Wire WireSpec WireProofs ConnState Conn ConnSpec CallSpec MsgSpec SeqOutside.
Unset Strict Implicit.

(** The fragment message and the fragment in it. *)
Lemma frag_in_message id off more data : 0 <= id < 65536 -> 0 <= off -> off mod 8 = 0 -> off + len data <= 1500 ->
  frag_in (fragment_message id off more data) = Some (id, Fragment off (if more then 1 else 0) data).
Proof.
  intros Hid Ho H8 Hl. pose proof (len_nonneg data) as Ln. unfold frag_in.
  assert (len (fragment_message id off more data) = 7 + len data) as L
    by (unfold fragment_message; rewrite len_cons, !len_app, !len_be16; lia). rewrite L.
  assert (forall i m, field16 m i = nth i m 0 * 256 + nth (S i) m 0) as FF by reflexivity.
  assert (field16 (fragment_message id off more data) 1 = len data) as F1.
  { rewrite FF. cbn [fragment_message be16 app nth]. pose proof (Z.div_mod (len data) 256). lia. }
  assert (field16 (fragment_message id off more data) 3 = id) as F3.
  { rewrite FF. cbn [fragment_message be16 app nth]. pose proof (Z.div_mod id 256). lia. }
  assert (field16 (fragment_message id off more data) 5 = off / 8 + (if more then 8192 else 0)) as F5.
  { rewrite FF. cbn [fragment_message be16 app nth]. set (v := off / 8 + _). pose proof (Z.div_mod v 256). lia. }
  rewrite F1, F3, F5.
  assert (0 <= off / 8 < 8192) as O8 by (split; [apply Z.div_pos; lia|apply Z.div_lt_upper_bound; lia]).
  assert ((off / 8 + (if more then 8192 else 0)) mod 8192 * 8 = off) as ->.
  { replace (off / 8 + (if more then 8192 else 0)) with (off / 8 + (if more then 1 else 0) * 8192) by (destruct more; lia).
    rewrite Z.mod_add by lia. rewrite Z.mod_small by lia. pose proof (Z.div_mod off 8). lia. }
  assert (((off / 8 + (if more then 8192 else 0)) / 8192) mod 2 = if more then 1 else 0) as ->.
  { replace (off / 8 + (if more then 8192 else 0)) with (off / 8 + (if more then 1 else 0) * 8192) by (destruct more; lia).
    rewrite Z.div_add by lia. rewrite (Z.div_small (off / 8)) by lia. destruct more; reflexivity. }
  destruct (Z.leb_spec 7 (7 + len data)); [|lia]. destruct (Z.leb_spec (7 + len data) (7 + len data)); [|lia].
  destruct (Z.leb_spec (off + len data) 1500); [|lia]. cbn [andb]. do 3 f_equal.
  unfold fragment_message, slice. cbn [be16 app]. change (Z.to_nat 7) with 7%nat. cbn [skipn].
  rewrite firstn_all2; [reflexivity|]. unfold len. lia.
Qed.

Lemma fragments_nth id : forall cs off i, (i < length cs)%nat ->
  nth i (fragments id off cs) [] =
  fragment_message id (off + len (concat (firstn i cs))) (S i <? length cs)%nat (nth i cs []).
Proof.
  induction cs as [|c cs IH]; intros off i Hi; [cbn in Hi; lia|]. destruct i as [|i].
  - cbn [fragments nth firstn concat length]. rewrite len_nil, Z.add_0_r. f_equal. now destruct cs.
  - cbn [fragments nth firstn concat length]. rewrite IH by (cbn in Hi; lia). rewrite len_app. f_equal; lia.
Qed.
Lemma fragments_length id : forall cs off, length (fragments id off cs) = length cs.
Proof. induction cs; intros; cbn [fragments length]; auto. Qed.

(** One clock reading is enough. *)
Lemma one_clock t id off mf data n1 n2 : n2 - n1 <= 64 ->
  exists n, (n = n1 \/ n = n2) /\ frag_store true true n1 n2 t id off mf data = frag_store true true n n t id off mf data.
Proof.
  intros H. unfold frag_store, table_find. destruct (t_get t (slot t id)) as [e|].
  - exists n2. auto.
  - exists n1. split; [auto|]. cbn [fe_time]. change HE_FRAG_TTL with 64.
    destruct (Z.ltb_spec 64 (n2 - n1)); [lia|]. destruct (Z.ltb_spec 64 (n1 - n1)); [lia|]. reflexivity.
Qed.

Definition opt_packet (o : option bytes) : list bytes := match o with Some p => if ipv4_packet p then [p] else [] | None => [] end.

Definition frag_val (x : Z * bytes) : fragment :=
  match frag_in (snd x) with Some (_, f) => f | None => Fragment 0 0 [] end.

Section T.
Variable le : bool.
Variable a b : Z.
Variable A : answers.
Hypothesis Hal : forall r, In (QAlloc, r) A -> r <> 0.
Hypothesis Htm : forall r r', In (QTime, r) A -> In (QTime, r') A -> r - r' <= 64.

Lemma field16_le m i : bytes_ok m -> 0 <= field16 m i.
Proof. intros B. unfold field16. pose proof (bytes_ok_nth i B). pose proof (bytes_ok_nth (S i) B). unfold byte_ok in *. lia. Qed.
Lemma frag_in_off m id f : bytes_ok m -> frag_in m = Some (id, f) -> 0 <= f_off f.
Proof.
  intros B. unfold frag_in. destruct (_ && _); [|discriminate]. intros [= _ <-]. cbn [f_off].
  pose proof (Z.mod_pos_bound (field16 m 5) 8192). lia.
Qed.

Lemma took_place n id ds : forall tb tb', took le a b A tb ds tb' -> forall t, tb = Some t -> table_wf t -> t_num t = n ->
  exists t' l os, tb' = Some t' /\ table_wf t' /\ t_num t' = n /\
    slot_run (t_get t (id mod n)) l = Val (os, t_get t' (id mod n)) /\
    Forall (fun x => In (QTime, a_now x) A) l /\
    (let mine := filter (fun d => at_place n id (fst d)) ds in
     map a_frag l = map (fun d => frag_val (fst d)) mine /\ map snd mine = map opt_packet os).
Proof.
  induction 1 as [tb|tb x ds tb1 tb2 ps St Tk IH]; intros t -> Wt Nt.
  - exists t, [], []. split; [reflexivity|]. split; [exact Wt|]. split; [exact Nt|]. repeat split. constructor.
  - assert (forall t1 (qs : list bytes), tb1 = Some t1 -> table_wf t1 -> t_num t1 = n -> t_get t1 (id mod n) = t_get t (id mod n) -> at_place n id x = false ->
      exists t' l os, tb2 = Some t' /\ table_wf t' /\ t_num t' = n /\
        slot_run (t_get t (id mod n)) l = Val (os, t_get t' (id mod n)) /\
        Forall (fun x => In (QTime, a_now x) A) l /\
        (let mine := filter (fun d => at_place n id (fst d)) ((x, qs) :: ds) in
         map a_frag l = map (fun d => frag_val (fst d)) mine /\ map snd mine = map opt_packet os)) as Other.
    { intros t1 qs E1 W1 N1 G1 P1. destruct (IH t1 E1 W1 N1) as (t' & l & os & H). exists t', l, os.
      rewrite <- G1. cbn [filter fst]. rewrite P1. exact H. }
    inversion St as [F|F D|t0 i f a1 a2 n1 n2 rc o t' F On Fi Tb I1 I2 I3 I4 FS Q1 Q2]; subst tb1.
    + apply (Other t); auto. unfold at_place. rewrite F. now rewrite andb_false_r.
    + apply (Other t); auto. unfold at_place. destruct D as [D|[D|D]]; [| |discriminate].
      * destruct (Z.eqb_spec (fst x) HE_STATE_ONLINE); [contradiction|reflexivity].
      * rewrite D. now rewrite andb_false_r.
    + injection Tb as <-.
      assert (negb (a1 =? 0) = true) as B1 by (apply negb_true_iff, Z.eqb_neq; now apply Hal).
      assert (negb (a2 =? 0) = true) as B2 by (apply negb_true_iff, Z.eqb_neq; now apply Hal).
      rewrite B1, B2 in FS.
      assert (0 <= f_off f) as Hoff.
      { unfold frag_in in Fi. destruct (_ && _); [|discriminate]. injection Fi as _ <-. cbn [f_off].
        pose proof (Z.mod_pos_bound (field16 (snd x) 5) 8192). lia. }
      destruct (one_clock t i (f_off f) (f_mf f) (f_data f) (n1 := n1) (n2 := n2)) as (nn & Hnn & OC); [now apply Htm|].
      rewrite OC in FS.
      set (ar := Arrived nn i f).
      assert (slot_wf (t_get t (slot t i))) as SW by (intros e; apply Wt).
      destruct (@slot_step_total (t_get t (slot t i)) ar SW Hoff) as (po & oe & SS & SWo).
      destruct (receive_slot SS) as (t1 & Rc & N1 & G1 & G2).
      unfold receive in Rc. cbn [ar a_now a_id a_frag] in Rc. rewrite FS in Rc. cbn [rbind] in Rc.
      assert (po = o /\ t1 = match o with Some _ => table_delete t' i | None => t' end) as [-> ->]
        by (destruct o; injection Rc as <- <-; auto).
      set (t1 := match o with Some _ => table_delete t' i | None => t' end) in *.
      assert (slot t i = i mod n) as Si by (apply slot_mod; auto; rewrite <- Nt; apply Wt).
      assert (table_wf t1) as W1.
      { split; [rewrite N1; apply Wt|]. intros j e Gj. destruct (Z.eq_dec j (slot t i)) as [->|Nj].
        - apply SWo. now rewrite <- G1.
        - rewrite G2 in Gj by exact Nj. eapply Wt; eauto. }
      change (a_id ar) with i in *. rewrite Si in *. assert (t_num t1 = n) as N1' by congruence.
      destruct (Z.eq_dec (i mod n) (id mod n)) as [Eq|Ne].
      * destruct (IH t1 eq_refl W1 N1') as (t2 & l & os & E2 & W2 & N2 & Rn & Fa & Mf & Ms).
        exists t2, (ar :: l), (o :: os). split; [exact E2|]. split; [exact W2|]. split; [exact N2|]. split; [|split; [|]].
        -- cbn [slot_run]. rewrite <- Eq, SS. cbn [rbind]. rewrite <- Eq, G1 in Rn. rewrite Rn. reflexivity.
        -- constructor; [|exact Fa]. cbn. destruct Hnn as [-> | ->]; assumption.
        -- assert (at_place n id x = true) as AP by (unfold at_place; now rewrite On, F, Fi, Eq, !Z.eqb_refl).
           cbv zeta. cbn [filter fst]. rewrite AP. cbn [map fst snd]. rewrite Mf, Ms. split.
           ++ f_equal. unfold frag_val. rewrite Fi. reflexivity.
           ++ f_equal.
      * apply (Other t1); auto.
        unfold at_place. rewrite Fi. destruct (Z.eqb_spec (i mod n) (id mod n)); [contradiction|]. now rewrite andb_false_r.
Qed.

Lemma took_reassembles t tb' ds n id cs p arr :
  took le a b A (Some t) ds tb' -> table_wf t -> t_num t = n -> t_get t (id mod n) = None -> 0 <= id < 65536 ->
  cut_of cs p 1500 -> (forall i, (S i < length cs)%nat -> len (nth i cs []) mod 8 = 0) -> arrival (length cs) arr ->
  (let mine := filter (fun d => at_place n id (fst d)) ds in
   map (fun d => snd (fst d)) mine = map (fun i => nth i (fragments id 0 cs) []) arr) ->
  let mine := filter (fun d => at_place n id (fst d)) ds in
  (grows_consecutively arr -> map snd mine = repeat [] (length cs - 1) ++ [if ipv4_packet p then [p] else []]) /\
  (~ grows_consecutively arr -> map snd mine = repeat [] (length cs)).
Proof.
  intros Tk Wt Nt Gt Hid CUT H8 Ar Ms. cbv zeta in Ms. intros mine. fold mine in Ms.
  destruct (took_place id Tk eq_refl Wt Nt) as (t' & l & os & -> & W' & N' & Rn & Fa & Mf & Mo). fold mine in Mf, Mo. rewrite Gt in Rn.
  assert (map a_frag l = map (piece cs) arr) as Mp.
  { rewrite Mf. assert (forall x, frag_val x = match frag_in (snd x) with Some (_, f) => f | None => Fragment 0 0 [] end) as FV by reflexivity.
    transitivity (map (fun m => match frag_in m with Some (_, f) => f | None => Fragment 0 0 [] end) (map (fun d => snd (fst d)) mine)).
    - rewrite map_map. apply map_ext. intros. apply FV.
    - rewrite Ms, map_map. apply map_ext_in. intros i Hi. apply Ar in Hi. rewrite fragments_nth by exact Hi.
      assert (forall k, (k < length cs)%nat -> len (concat (firstn k cs)) mod 8 = 0) as M8.
      { clear -H8. induction k as [|k IH]; intros Hk; [reflexivity|]. rewrite (@firstn_S_nth _ cs k []) by lia.
        rewrite concat_app, len_app. cbn [concat]. rewrite app_nil_r. rewrite Z.add_mod by lia. rewrite IH by lia. rewrite H8 by lia. reflexivity. }
      assert (len (concat (firstn i cs)) + len (nth i cs []) <= len p) as Lp.
      { destruct CUT as (<- & _). rewrite <- (firstn_skipn i cs) at 3. rewrite concat_app, len_app.
        rewrite <- (firstn_skipn i cs) at 2. rewrite app_nth2 by (rewrite firstn_length; lia). rewrite firstn_length, Nat.min_l, Nat.sub_diag by lia.
        destruct (skipn i cs) as [|c l'] eqn:Sk; [assert (length (skipn i cs) = 0)%nat as X by (rewrite Sk; reflexivity); rewrite skipn_length in X; lia|].
        cbn [nth concat]. rewrite len_app. pose proof (len_nonneg (concat l')). lia. }
      destruct CUT as (_ & _ & _ & Hp). pose proof (len_nonneg (concat (firstn i cs))).
      rewrite frag_in_message; [|exact Hid|lia|rewrite Z.add_0_l; apply M8; exact Hi|lia].
      unfold piece. now rewrite Z.add_0_l. }
  destruct (slot_run_pieces CUT Ar Mp) as [S1 S2].
  { intros x Hx. destruct l as [|y l]; [destruct Hx|]. cbn [hd]. rewrite Forall_forall in Fa. apply Htm; apply Fa; [exact Hx|now left]. }
  split; intros G.
  - rewrite (S1 G) in Rn. injection Rn as <- _. rewrite Mo, map_app. cbn [map opt_packet]. f_equal.
    clear. induction (length cs - 1)%nat; cbn; congruence.
  - destruct (S2 G) as [o' S2']. rewrite S2' in Rn. injection Rn as <- _. rewrite Mo. clear. induction (length cs); cbn; congruence.
Qed.
End T.
