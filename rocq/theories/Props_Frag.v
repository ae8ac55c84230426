(** C10, C11 — reassembly of fragments.  Specification: [FragSpec.v]; model:
    [Frag.v] (fragment table), [FragHistory.receive_rc] / [ReasmTable.receive_all]
    (what the fragment message handler does with it).  The handler itself, on
    message bytes, is in Conn.v. *)
From Verif Require Import Base Codes Frag FragSpec FragProofs ReasmTable FragHistory.

(** C10 (part): with nothing pending at the place of the packet, whatever else
    arrives for other places in between and whatever happened before, the
    pieces of [p] complete exactly [p], exactly once and with the last piece,
    when the set of pieces received stays consecutive; in every other order
    nothing is ever delivered.  Missing (and false, see below): other orders. *)
Theorem C10_reassembly_partial :
  forall n h t cs p arr L id,
  1 <= n <= 65536 -> history n h t -> since n id h = [] ->
  cut_of cs p 1500 -> arrival (length cs) arr ->
  Forall (fun a => 0 <= f_off (a_frag a)) L ->
  (let mine := filter (fun a => a_id a mod n =? id mod n) L in
   map a_frag mine = map (piece cs) arr /\
   forall a b, In a mine -> In b mine -> a_now a - a_now b <= 64) ->
  exists os t', receive_all t L = Val (os, t') /\
  (grows_consecutively arr -> completed n id os = repeat None (length cs - 1) ++ [Some p]) /\
  (~ grows_consecutively arr -> completed n id os = repeat None (length cs)).
Proof. exact reassembly_after. Qed.
Print Assumptions C10_reassembly_partial.

(** Finding: the pieces of a packet in the order 1, 3, 2 are accepted (no error)
    and the packet is never delivered. *)
Definition piece8 (c : Z) : bytes := repeat c 8.
Definition three : list bytes := [piece8 1; piece8 2; piece8 3].
Theorem C10_any_order_refuted :
  arrival 3 [0; 2; 1]%nat /\ cut_of three (concat three) 1500 /\
  exists t', receive_all (fresh 65536)
      (map (fun i => Arrived 0 7 (piece three i)) [0; 2; 1]%nat) =
    Val ([(7, None); (7, None); (7, None)], t') /\
  t_get t' 7 <> None.
Proof.
  split; [|split].
  - split; [repeat (constructor; [simpl; intuition lia|]); constructor|].
    intros i. simpl. destruct i as [|[|[|i]]]; intuition lia.
  - split; [reflexivity|]. split; [repeat constructor; discriminate|]. split; [simpl; lia|].
    vm_compute. discriminate.
  - eexists. split; [vm_compute; reflexivity|]. vm_compute. discriminate.
Qed.
Print Assumptions C10_any_order_refuted.

(** Finding: a packet sent as one single fragment (offset 0, no more fragments)
    is accepted and never delivered. *)
Theorem C10_single_fragment_refuted :
  exists t', receive_all (fresh 65536) [Arrived 0 7 (Fragment 0 0 (piece8 1))] =
             Val ([(7, None)], t').
Proof. eexists. vm_compute. reflexivity. Qed.
Print Assumptions C10_single_fragment_refuted.

(** C11: every byte of a delivered packet was received at that position, in a
    fragment of the same place since the last packet delivered there, provided
    no fragment of the place was refused in between. *)
Theorem C11_bytes_were_received :
  forall n, 1 <= n <= 65536 ->
  forall h t a p rc, history n (Outcome a rc (Some p) :: h) t ->
  Forall (fun o => o_rc o = HE_SUCCESS) (since n (a_id a) h) ->
  len p <= 1500 /\
  forall pos, 0 <= pos < len p ->
  exists f, In f (a_frag a :: map (fun o => a_frag (o_arr o)) (since n (a_id a) h)) /\
            carries f pos (nth (Z.to_nat pos) p 0).
Proof. exact history_received. Qed.
Print Assumptions C11_bytes_were_received.

(** In all cases (also after a refused fragment) a byte is a received byte of
    that position or zero: no stale memory leaks. *)
Theorem C11_received_or_zero :
  forall n, 1 <= n <= 65536 ->
  forall h t a p rc, history n (Outcome a rc (Some p) :: h) t ->
  len p <= 1500 /\
  forall pos, 0 <= pos < len p ->
  nth (Z.to_nat pos) p 0 = 0 \/
  exists f, In f (a_frag a :: map (fun o => a_frag (o_arr o)) (since n (a_id a) h)) /\
            carries f pos (nth (Z.to_nat pos) p 0).
Proof. exact history_received_or_zero. Qed.
Print Assumptions C11_received_or_zero.

(** No fragment, after any history, reads or writes outside a buffer, follows a
    NULL pointer or loops (allocations succeeding). *)
Theorem C11_memory_safe :
  forall n, 1 <= n <= 65536 -> forall h t a, history n h t -> 0 <= f_off (a_frag a) ->
  exists rc o t', receive_rc t a = Val (rc, o, t').
Proof. exact history_total. Qed.
Print Assumptions C11_memory_safe.

(** Finding: after a refused (overlapping) fragment the entry survives, and a
    later fragment completes a packet with 8 bytes nobody sent. *)
Definition bad_run : list arrived :=
  map (fun f => Arrived 0 7 f)
    [Fragment 0 1 (piece8 1); Fragment 16 1 (piece8 3);
     Fragment 8 0 (piece8 2 ++ piece8 3); Fragment 32 1 (piece8 5)].
Fixpoint run_rc (t : table) (h : list outcome) (l : list arrived) : res (list outcome * table) :=
  match l with
  | [] => Val (h, t)
  | a :: l => do r <- receive_rc t a; let '(rc, o, t) := r in run_rc t (Outcome a rc o :: h) l
  end.
Lemma run_rc_history n l : Forall (fun a => 0 <= f_off (a_frag a)) l ->
  forall t h h' t', history n h t -> run_rc t h l = Val (h', t') -> history n h' t'.
Proof.
  induction l as [|a l IH]; intros F t h h' t' H E; cbn [run_rc] in E.
  - injection E as <- <-. exact H.
  - inversion F as [|? ? Fa Fl]; subst. destruct (receive_rc t a) as [[[rc o] t1]|] eqn:R; [|discriminate].
    cbn [rbind] in E. eapply IH; [exact Fl| |exact E]. econstructor; eauto.
Qed.
Theorem C11_refused_fragment_refuted :
  exists h t a p rc, history 65536 (Outcome a rc (Some p) :: h) t /\
  exists pos, 0 <= pos < len p /\
  forall f, In f (a_frag a :: map (fun o => a_frag (o_arr o)) h) ->
  ~ carries f pos (nth (Z.to_nat pos) p 0).
Proof.
  destruct (run_rc (fresh 65536) [] bad_run) as [[hh tt]|u] eqn:E; [|vm_compute in E; discriminate].
  assert (history 65536 hh tt) as H.
  { eapply run_rc_history; [| |exact E]; [|constructor].
    repeat constructor; cbn; lia. }
  assert (exists h a p rc, hh = Outcome a rc (Some p) :: h /\
     exists pos, 0 <= pos < len p /\
     Forall (fun f => pos < f_off f \/ f_off f + len (f_data f) <= pos \/
                      nth (Z.to_nat (pos - f_off f)) (f_data f) 0 <> nth (Z.to_nat pos) p 0)
            (a_frag a :: map (fun o => a_frag (o_arr o)) h)) as (h & a & p & rc & -> & pos & Hp & F).
  { vm_compute in E. injection E as <- _. eexists _, _, _, _; split; [reflexivity|].
    exists 8. split; [vm_compute; intuition congruence|].
    repeat (constructor; [first [left; reflexivity|right; left; vm_compute; congruence
                                |right; right; vm_compute; congruence]|]). constructor. }
  exists h, tt, a, p, rc. split; [exact H|]. exists pos. split; [exact Hp|].
  intros f I [C D]. rewrite Forall_forall in F. destruct (F f I) as [G|[G|G]]; [lia|lia|contradiction].
Qed.
Print Assumptions C11_refused_fragment_refuted.

(** Finding: with [n] table entries, packets whose ids are equal modulo [n] are
    mixed into one packet. *)
Theorem C11_ids_mixed_refuted :
  exists p t, receive_all (fresh 4)
     [Arrived 0 1 (Fragment 0 1 (piece8 1)); Arrived 0 5 (Fragment 8 0 (piece8 2))] =
     Val ([(1, None); (1, Some p)], t) /\ p = piece8 1 ++ piece8 2.
Proof. eexists _, _; split; [vm_compute; reflexivity|reflexivity]. Qed.
Print Assumptions C11_ids_mixed_refuted.

(** Non-vacuity: three pieces in order 1, 0, 2, another packet in between. *)
Example C10_example :
  exists t', receive_all (fresh 65536)
    [Arrived 0 7 (piece three 1); Arrived 1 8 (piece three 0); Arrived 2 7 (piece three 0);
     Arrived 64 7 (piece three 2)] =
  Val ([(7, None); (8, None); (7, None); (7, Some (concat three))], t') /\
  arrival 3 [1; 0; 2]%nat /\ grows_consecutively [1; 0; 2]%nat.
Proof.
  eexists. split; [vm_compute; reflexivity|]. split.
  - split; [repeat (constructor; [simpl; intuition lia|]); constructor|].
    intros i. simpl. destruct i as [|[|[|i]]]; intuition lia.
  - intros k. destruct k as [|[|[|k]]]; cbn [firstn].
    + exists 0%nat, 0%nat. simpl. intros; lia.
    + exists 1%nat, 2%nat. simpl. intros; lia.
    + exists 0%nat, 2%nat. simpl. intros i; destruct i as [|[|i]]; intuition lia.
    + exists 0%nat, 3%nat. rewrite firstn_nil. simpl. intros i; destruct i as [|[|[|i]]]; intuition lia.
Qed.
Example C11_example :
  exists h t a p rc, history 65536 (Outcome a rc (Some p) :: h) t /\ p = concat three /\
  Forall (fun o => o_rc o = HE_SUCCESS) (since 65536 (a_id a) h) /\ length h = 2%nat.
Proof.
  destruct (run_rc (fresh 65536) [] (map (fun i => Arrived 0 7 (piece three i)) [0; 1; 2]%nat))
    as [[hh tt]|u] eqn:E; [|vm_compute in E; discriminate].
  assert (history 65536 hh tt) as H.
  { eapply run_rc_history; [| |exact E]; [|constructor]. repeat constructor; vm_compute; congruence. }
  revert H. vm_compute in E. injection E as <- _. intros H.
  eexists _, _, _, _, _. split; [exact H|]. split; [reflexivity|].
  split; [vm_compute; repeat constructor|reflexivity].
Qed.
