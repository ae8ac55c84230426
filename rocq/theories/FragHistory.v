(** Histories of fragments at one receiver: nothing is invented (C11). *)
From Verif Require Import Base Codes Frag FragSpec FragProofs ReasmTable.
Unset Strict Implicit.

(** What he_handle_msg_data_with_frag does with the table for one fragment, with
    the return code (msg_handlers.c:459-503; allocations succeed, one clock
    reading). *)
Definition receive_rc (t : table) (a : arrived) : res (Z * option bytes * table) :=
  do r <- frag_store true true (a_now a) (a_now a) t (a_id a)
            (f_off (a_frag a)) (f_mf (a_frag a)) (f_data (a_frag a));
  let '(rc, o, t) := r in
  match o with
  | Some p => Val (rc, Some p, table_delete t (a_id a))
  | None => Val (rc, None, t)
  end.

(** The table created by he_internal_fragment_table_create with [n] entries. *)
Definition fresh (n : Z) : table := Table n (fun _ => None).

Inductive history (n : Z) : list outcome -> table -> Prop :=
| history_nil : history n [] (fresh n)
| history_cons h t a rc o t' :
    history n h t -> 0 <= f_off (a_frag a) -> receive_rc t a = Val (rc, o, t') ->
    history n (Outcome a rc o :: h) t'.

Definition frags (l : list outcome) : list fragment := map (fun o => a_frag (o_arr o)) l.

Section H.
Variable n : Z.
Hypothesis N : 1 <= n <= 65536.

Lemma slot_mod t id : t_num t = n -> slot t id = id mod n.
Proof.
  intros E. unfold slot. rewrite E. apply u16_small.
  pose proof (Z.mod_pos_bound id n); lia.
Qed.

Definition place_inv (l : list outcome) (o : option entry) : Prop :=
  match o with
  | None => l = []
  | Some e =>
    exists t0,
    (exists fs, incl fs (frags l) /\ Forall (fun f => 0 <= f_off f) fs /\ fed_any (entry0 t0) fs e) /\
    (Forall (fun x => o_rc x = HE_SUCCESS) l ->
     exists fs, incl fs (frags l) /\ Forall frag_ok fs /\ fed (entry0 t0) fs e)
  end.

Lemma entry_update_success_ok e d off mf a e' :
  0 <= off -> entry_update true e d off mf = Val (HE_SUCCESS, a, e') ->
  off + len d <= 1500.
Proof.
  intros Ho. unfold entry_update. change HE_MAX_WIRE_MTU with 1500.
  destruct (1500 <? off + len d) eqn:E; [|lia]. intros H. injection H as H _ _. discriminate.
Qed.

(** What the entry of the place is when the update runs. *)
Lemma receive_rc_inv t a rc o t' l :
  t_num t = n -> 0 <= f_off (a_frag a) ->
  place_inv l (t_get t (a_id a mod n)) ->
  receive_rc t a = Val (rc, o, t') ->
  exists e e' asm, place_inv l (Some e) /\
    entry_update true e (f_data (a_frag a)) (f_off (a_frag a)) (f_mf (a_frag a)) = Val (rc, asm, e') /\
    t_num t' = n /\
    (forall i, i <> a_id a mod n -> t_get t' i = t_get t i) /\
    match o with
    | None => t_get t' (a_id a mod n) = Some e'
    | Some p => t_get t' (a_id a mod n) = None /\ asm = true /\ rc = HE_SUCCESS /\
                exists h tl, fe_nodes e' = h :: tl /\ ldn (fe_data e') 0 (n_end h) = Val p
    end.
Proof.
  intros Nt Ho P. set (s := a_id a mod n) in *.
  unfold receive_rc, frag_store, table_find. rewrite (slot_mod _ Nt). fold s.
  assert (exists e t1, (match t_get t s with Some e => (Some e, t)
            | None => if true then (Some (Entry (zeros HE_MAX_WIRE_MTU) (a_now a) []),
                          t_set t s (Some (Entry (zeros HE_MAX_WIRE_MTU) (a_now a) []))) else (None, t) end)
            = (Some e, t1) /\ t_num t1 = n /\ place_inv l (Some e) /\
            forall i, i <> s -> t_get t1 i = t_get t i) as (e & t1 & -> & N1 & P1 & G1).
  { destruct (t_get t s) as [e|].
    - exists e, t. auto.
    - eexists _, _; split; [reflexivity|]. split; [exact Nt|]. split.
      + exists (a_now a). split; [|intros _].
        * exists []. split; [intros x []|]. split; constructor.
        * exists []. split; [intros x []|]. split; constructor.
      + intros i Hi. cbn [t_set t_get]. destruct (i =? s) eqn:Q; [lia|reflexivity]. }
  set (e1 := if _ <? _ then _ else e).
  assert (place_inv l (Some e1)) as P2.
  { unfold e1. destruct (_ <? _); [|exact P1]. exists (a_now a). split; [|intros _].
    * exists []. split; [intros x []|]. split; constructor.
    * exists []. split; [intros x []|]. split; constructor. }
  clearbody e1. rewrite (slot_mod _ N1). fold s.
  intros E.
  destruct (entry_update _ _ _ _ _) as [[[rc' asm] e']|u] eqn:U; [|discriminate]. cbn [rbind] in E.
  exists e1, e', asm. split; [exact P2|].
  destruct (negb (rc' =? HE_SUCCESS)) eqn:R.
  { cbn [rbind] in E. injection E as <- <- <-. rewrite U. repeat split; auto.
    - intros i Hi. cbn [t_set t_get]. destruct (i =? s) eqn:Q; [lia|]. auto.
    - cbn [t_set t_get]. now rewrite Z.eqb_refl. }
  destruct asm.
  - destruct (fe_nodes e') as [|h tl] eqn:En; [discriminate|].
    destruct (ldn _ _ _) as [q|u] eqn:L; [|discriminate]. cbn [rbind] in E. injection E as <- <- <-.
    rewrite U. split; [reflexivity|]. split; [exact N1|].
    unfold table_delete. rewrite (slot_mod (t := t_set t1 s (Some e')) _ N1). fold s.
    split; [|split; [|split; [reflexivity|split; [lia|]]]].
    + intros i Hi. cbn [t_set t_get]. destruct (i =? s) eqn:Q; [lia|]. auto.
    + cbn [t_set t_get]. now rewrite Z.eqb_refl.
    + exists h, tl. auto.
  - cbn [rbind] in E. injection E as <- <- <-. rewrite U. repeat split; auto.
    + intros i Hi. cbn [t_set t_get]. destruct (i =? s) eqn:Q; [lia|]. auto.
    + cbn [t_set t_get]. now rewrite Z.eqb_refl.
Qed.

Lemma place_inv_step l a rc e e' asm :
  place_inv l (Some e) -> 0 <= f_off (a_frag a) ->
  entry_update true e (f_data (a_frag a)) (f_off (a_frag a)) (f_mf (a_frag a)) = Val (rc, asm, e') ->
  place_inv (Outcome a rc None :: l) (Some e').
Proof.
  intros (t0 & (fs & I & F & D) & S) Ho U. exists t0. split.
  - exists (a_frag a :: fs). split; [|split; [constructor; auto|econstructor; eauto]].
    intros x [<-|Hx]; [now left|right; auto].
  - intros Fs. inversion Fs as [|? ? R Fl]; subst. cbn [o_rc] in R. subst rc.
    destruct (S Fl) as (fs' & I' & F' & D'). exists (a_frag a :: fs').
    split; [intros x [<-|Hx]; [now left|right; auto]|].
    split; [|econstructor; eauto]. constructor; auto. split; auto.
    eapply entry_update_success_ok; eauto.
Qed.

Lemma since_mod id id' h : id mod n = id' mod n -> since n id h = since n id' h.
Proof. intros E. induction h as [|o h IH]; cbn [since]; [auto|]. now rewrite E, IH. Qed.

Lemma history_inv h t : history n h t ->
  t_num t = n /\ forall id, place_inv (since n id h) (t_get t (id mod n)).
Proof.
  induction 1 as [|h t a rc o t' H [Nt P] Ho R].
  - split; [reflexivity|]. reflexivity.
  - destruct (receive_rc_inv Nt Ho (P (a_id a)) R) as (e & e' & asm & Pe & U & Nt' & G & M).
    split; [exact Nt'|]. intros id. cbn [since o_arr o_packet].
    destruct (a_id a mod n =? id mod n) eqn:Q.
    + apply Z.eqb_eq in Q. rewrite <- Q. destruct o as [p|].
      * destruct M as (-> & _). reflexivity.
      * rewrite M. rewrite (since_mod h (eq_sym Q)). eapply place_inv_step; eauto.
    + rewrite G by lia. apply P.
Qed.

(** Every byte of a completed packet was received, at that position, since the
    last completed packet of that place, provided all those fragments were
    accepted. *)
Lemma history_received h t a p :
  forall rc, history n (Outcome a rc (Some p) :: h) t ->
  Forall (fun o => o_rc o = HE_SUCCESS) (since n (a_id a) h) ->
  len p <= 1500 /\
  forall pos, 0 <= pos < len p ->
  exists f, In f (a_frag a :: frags (since n (a_id a) h)) /\ carries f pos (nth (Z.to_nat pos) p 0).
Proof.
  intros rc H F. inversion H as [|h' t1 a' rc' o' t' H1 Ho R]; subst.
  destruct (history_inv H1) as [Nt P].
  destruct (receive_rc_inv Nt Ho (P (a_id a)) R) as (e & e' & asm & Pe & U & _ & _ & _ & -> & -> & hd & tl & En & L).
  destruct Pe as (t0 & _ & S). destruct (S F) as (fs & I & Fo & D).
  assert (frag_ok (a_frag a)) as Fa by (split; auto; eapply entry_update_success_ok; eauto).
  destruct (reassembled_received Fo Fa D U) as (hd' & tl' & En' & B & K).
  rewrite En in En'. injection En' as <- <-.
  apply ldn_val in L as (L1 & L2 & L3 & ->).
  rewrite len_slice by lia. split; [lia|]. intros pos Hp.
  specialize (K pos Hp). apply newest_carries in K as (f & If & C).
  exists f. split.
  - destruct If as [<-|If]; [now left|right; auto].
  - rewrite nth_slice by lia. exact C.
Qed.

(** In every case a byte of a completed packet is a received byte or zero. *)
Lemma history_received_or_zero h t a p :
  forall rc, history n (Outcome a rc (Some p) :: h) t ->
  len p <= 1500 /\
  forall pos, 0 <= pos < len p ->
  nth (Z.to_nat pos) p 0 = 0 \/
  exists f, In f (a_frag a :: frags (since n (a_id a) h)) /\ carries f pos (nth (Z.to_nat pos) p 0).
Proof.
  intros rc H. inversion H as [|h' t1 a' rc' o' t' H1 Ho R]; subst.
  destruct (history_inv H1) as [Nt P].
  destruct (receive_rc_inv Nt Ho (P (a_id a)) R) as (e & e' & asm & Pe & U & _ & _ & _ & -> & -> & hd & tl & En & L).
  destruct Pe as (t0 & (fs & I & Fo & D) & _).
  destruct (@fed_any_inv t0 (a_frag a :: fs) e') as [[W1 W2] Z]; [constructor; auto|econstructor; eauto|].
  rewrite En in W2. inversion W2 as [|? ? [B1 B2] W3]; subst.
  apply ldn_val in L as (L1 & L2 & L3 & ->).
  rewrite len_slice by lia. split; [lia|]. intros pos Hp. rewrite nth_slice by lia.
  change (Z.to_nat 0 + Z.to_nat pos)%nat with (Z.to_nat pos).
  destruct (Z pos ltac:(lia)) as [Q|(f & If & C)]; [now left|right].
  exists f. split; auto. destruct If as [<-|If]; [now left|right; auto].
Qed.

(** Memory safety: any fragment can be received after any history. *)
Lemma history_total h t a : history n h t -> 0 <= f_off (a_frag a) ->
  exists rc o t', receive_rc t a = Val (rc, o, t').
Proof.
  intros H Ho. assert (table_wf t) as W.
  { destruct (history_inv H) as [Nt P]. split; [lia|]. intros i e G.
    destruct (Z.eq_dec (i mod n) i) as [Q|Q].
    - specialize (P i). rewrite Q, G in P. destruct P as (t0 & (fs & _ & F & D) & _).
      now destruct (fed_any_inv F D).
    - exfalso. clear -H G Q N. induction H as [|h t a rc o t' H IH Ho R]; [discriminate|].
      destruct (history_inv H) as [Nt P].
      destruct (receive_rc_inv Nt Ho (P (a_id a)) R) as (e1 & e' & asm & Pe & U & Nt' & G1 & M).
      destruct (Z.eq_dec i (a_id a mod n)) as [->|Ne].
      + apply Q. apply Z.mod_mod. lia.
      + rewrite G1 in G by auto. auto. }
  destruct (frag_store_total (t := t) (a_now a) (a_now a) (a_id a) (f_mf (a_frag a)) (f_data (a_frag a)) W Ho)
    as (rc & o & t' & E & _).
  unfold receive_rc. rewrite E. cbn [rbind]. destruct o; eexists _, _, _; reflexivity.
Qed.
End H.

Lemma pending_iff n (N : 1 <= n <= 65536) h t id : history n h t ->
  (t_get t (id mod n) = None <-> since n id h = []).
Proof.
  induction 1 as [|h t a rc o t' H IH Ho R]; [split; reflexivity|].
  destruct (history_inv N H) as [Nt P].
  destruct (receive_rc_inv N Nt Ho (P (a_id a)) R) as (e & e' & asm & Pe & U & Nt' & G & M).
  cbn [since o_arr o_packet]. destruct (a_id a mod n =? id mod n) eqn:Q.
  - apply Z.eqb_eq in Q. rewrite <- Q. destruct o as [p|].
    + destruct M as (-> & _). split; reflexivity.
    + rewrite M. split; discriminate.
  - rewrite G by lia. exact IH.
Qed.

Lemma history_slot_wf n (N : 1 <= n <= 65536) h t i : history n h t -> slot_wf (t_get t i).
Proof.
  induction 1 as [|h t a rc o t' H IH Ho R]; [intros e; discriminate|].
  destruct (history_inv N H) as [Nt P].
  destruct (receive_rc_inv N Nt Ho (P (a_id a)) R) as (e & e' & asm & Pe & U & Nt' & G & M).
  destruct (Z.eq_dec i (a_id a mod n)) as [->|Ne]; [|rewrite G by auto; exact IH].
  destruct o as [p|].
  - destruct M as (-> & _). intros x; discriminate.
  - rewrite M. intros x [= <-]. destruct Pe as (t0 & (fs & _ & F & D) & _).
    apply (@fed_any_inv t0 (a_frag a :: fs) e'); [constructor; auto|econstructor; eauto].
Qed.

(** The packets completed at the place of [id] while [L] arrives. *)
Definition completed (n id : Z) (os : list (Z * option bytes)) : list (option bytes) :=
  map snd (filter (fun o => fst o =? id mod n) os).

Lemma reassembly_after n h t cs p arr L id :
  1 <= n <= 65536 -> history n h t -> since n id h = [] ->
  cut_of cs p 1500 -> arrival (length cs) arr ->
  Forall (fun a => 0 <= f_off (a_frag a)) L ->
  (let mine := filter (fun a => a_id a mod n =? id mod n) L in
   map a_frag mine = map (piece cs) arr /\
   forall a b, In a mine -> In b mine -> a_now a - a_now b <= 64) ->
  exists os t', receive_all t L = Val (os, t') /\
  (grows_consecutively arr -> completed n id os = repeat None (length cs - 1) ++ [Some p]) /\
  (~ grows_consecutively arr -> completed n id os = repeat None (length cs)).
Proof.
  intros N H S CUT A F [M T]. destruct (history_inv N H) as [Nt _].
  assert (forall a, slot t (a_id a) = a_id a mod n) as Sl by (intros; now apply slot_mod).
  assert (filter (fun a => slot t (a_id a) =? id mod n) L =
          filter (fun a => a_id a mod n =? id mod n) L) as Ef
    by (apply filter_ext; intros; now rewrite Sl).
  destruct (@reassembly_in_table cs p arr t L (id mod n)) as (os & t' & E & H1 & H2); auto.
  - intros i. eapply history_slot_wf; eauto.
  - now apply (pending_iff N id H).
  - cbv zeta. rewrite Ef. split; [exact M|]. intros a Ha.
    destruct (filter _ L) as [|b l] eqn:Q; [destruct Ha|]. cbn [hd]. apply T; [auto|now left].
  - exists os, t'. split; [exact E|]. split; [intros G; apply (H1 G)|exact H2].
Qed.
