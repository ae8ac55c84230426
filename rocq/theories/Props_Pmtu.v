(** C12: path MTU discovery stays within its bounds. *)
From Verif Require Import Base Codes Ctx Config Mss MssSpec Frag FragSpec
  Wire WireSpec ConnState Conn ConnSpec HistSpec CallSpec MsgSpec ConnSteps Hist ConnWp ConnWpApi Frame SeqInside SeqLoop SeqApi SeqPing Scenario Props_Auth Props_Data Props_Size Props_Ping.
Unset Strict Implicit.

(** he_conn_get_effective_pmtu, after any history, for any host: 1350 unless a
    search has been completed and not been invalidated, else 504 to 1416. *)
Theorem C12_effective_range : forall E n ops,
  let c := w_c (world_of (run E n ops world_new)) in
  504 <= effective_pmtu c <= 1416 /\
  (pm_state (c_pm c) <> HE_PMTUD_STATE_SEARCH_COMPLETE -> effective_pmtu c = 1350).
Proof.
  intros E n ops c. pose proof (Reach_cok (run_reach E n ops)) as K. fold c in K.
  pose proof (ok_eff K) as Ef. change MAX_PLPMTU with 1416 in Ef. unfold effective_pmtu. change HE_MAX_MTU with 1350.
  destruct (Z.eqb_spec (pm_eff (c_pm c)) 0) as [Y|Y]; cbn [orb].
  - lia.
  - destruct (Z.eqb_spec (pm_state (c_pm c)) HE_PMTUD_STATE_SEARCH_COMPLETE) as [Z1|Z1]; cbn [negb]; split; intros; try lia; congruence.
Qed.
Print Assumptions C12_effective_range.
(** For a host that makes no calls inside callbacks, on a connection connected at
    most once, it is never below 512. *)
Theorem C12_effective_range_once : forall E ops w, run E 0 ops world_new = Done tt w -> once (w_t w) ->
  512 <= effective_pmtu (w_c w) <= 1416.
Proof.
  intros E ops w R On. assert (reached E w) as Re by now exists ops.
  assert (Reach w) as Rw by exact (proj1 (reached_good Re)).
  pose proof (reached_re Re) as Hr.
  destruct (Reach_pm Rw Hr On) as [[_ [Ef _]] _]. change MIN_PLPMTU with 512 in Ef. change MAX_PLPMTU with 1416 in Ef.
  unfold effective_pmtu. change HE_MAX_MTU with 1350. destruct (Z.eqb_spec (pm_eff (c_pm (w_c w))) 0); cbn [orb]; [lia|].
  destruct (negb _); lia.
Qed.
Print Assumptions C12_effective_range_once.
(** Every PING ever sent is a keepalive of 5 bytes or a probe of a size between
    512 and 1416 (on the wire 3 bytes more, as many as a data message carrying a
    packet of that size), sent while ONLINE. *)
Theorem C12_probe_size : forall E n ops,
  every (fun s e past => forall m, e = EWOp (WSend m) -> msg_type m = HE_MSGID_PING ->
           s = HE_STATE_ONLINE /\ (len m = 5 \/ 512 <= len m - 3 <= 1416)) (history E n ops).
Proof.
  intros E n ops. apply history_every, Reach_every; try discriminate.
  intros w e R [_ H] m -> T. destruct H as (_ & _ & H).
  destruct H as [[T' O]|[(T' & _ & O)|[(T' & O & _ & _ & S)|[(T' & _ & S)|[(T' & S & _)|[(T' & O & L)|[(T' & O & _)|[(T' & S & V)|(T' & L & S & CO)]]]]]]]];
    rewrite T in T'; try discriminate T'.
  split; [exact O|]. change sizeof_ping with 5 in L. change MIN_PLPMTU with 512 in L. change MAX_PLPMTU with 1416 in L. change sizeof_data with 3 in L. lia.
Qed.
Print Assumptions C12_probe_size.

(** ** What does not hold *)
(** A search can complete with a size that was never acknowledged: the probes of
    1250 bytes are lost, the one of 512 is answered, and the search goes on from
    1250 as if that had been answered. *)
Definition search_512 : list op := [OStartPmtud] ++ repeat OPmtudTimeout 3 ++ [pong 4] ++ repeat OPmtudTimeout 6.
Theorem C12_unacknowledged_refuted : exists ops,
  let w := world_at ops in
  reached plain_env w /\ pm_state (c_pm (w_c w)) = HE_PMTUD_STATE_SEARCH_COMPLETE /\
  effective_pmtu (w_c w) = 1250 /\ acknowledged (w_t w) = [512].
Proof.
  exists (client_up ++ search_512). cbv zeta. split; [apply world_at_reached; vm_compute; reflexivity|]. conj; vm_compute; reflexivity.
Qed.
Print Assumptions C12_unacknowledged_refuted.
(** An effective path MTU of 512 (all of whose probes were answered) makes the
    library refuse every packet. *)
Definition search_min : list op :=
  [OStartPmtud; pong 1] ++ repeat OPmtudTimeout 6 (* complete at 1250 *) ++ repeat OPmtudTimeout 4 (* black hole *)
  ++ [pong 11] ++ repeat OPmtudTimeout 6 (* complete at 512 *).
Theorem C12_minimum_unusable_refuted : exists ops w',
  let w := world_at ops in
  reached plain_env w /\ effective_pmtu (w_c w) = 512 /\ In 512 (acknowledged (w_t w)) /\
  call plain_env (OInside ipv4) w HE_ERR_FAILED w' /\ during sent w w' [].
Proof.
  exists (client_up ++ search_min), (world_at (client_up ++ search_min ++ [OInside ipv4])). cbv zeta.
  split; [apply world_at_reached; vm_compute; reflexivity|]. conj; vm_compute; auto.
Qed.
Print Assumptions C12_minimum_unusable_refuted.
(** The hypotheses are met: a search that ends at 1416. *)
Example C12_example :
  let w := world_at (client_up ++ [OStartPmtud] ++ map pong [1; 2; 3; 4; 5; 6; 7]) in
  reached plain_env w /\ effective_pmtu (w_c w) = 1416 /\ once (w_t w) /\
  acknowledged (w_t w) = [1416; 1410; 1378; 1346; 1314; 1282; 1250].
Proof. cbv zeta. split; [apply world_at_reached; vm_compute; reflexivity|]. conj; vm_compute; auto. Qed.
