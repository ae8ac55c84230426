(** C32, continued: calls one after the other, and nudge timers. *)
From Verif Require Import Base Codes Threads Props_Threads.
Unset Strict Implicit.

(** ** One thread alone *)
(** What a call does when nothing runs beside it. *)
Definition solo (s : shared) (j : job) : shared * list out :=
  match j with
  | JReceive h =>
    let s1 := sh_set_first true s in
    let told := if sh_first s then [] else [OutEvent HE_EVENT_FIRST_MESSAGE_RECEIVED] in
    if (h =? 0) || (h =? sh_session s) then (s1, told)
    else if h =? sh_pending s then (sh_set_pending 0 (sh_set_session h s1), told ++ [OutEvent HE_EVENT_PENDING_SESSION_ACKNOWLEDGED])
    else (s1, told)
  | JSend q n => (sh_set_frag ((sh_frag s + 1) mod 65536) s, map (OutFragment q (sh_frag s)) (seq 0 n))
  | JTimeout => (sh_set_nudge true s, if sh_nudge s then [] else [OutTimer])
  | JNudge => (sh_set_nudge false s, [])
  | JState v => (sh_set_state v s, if sh_state s =? v then [] else [OutState v])
  | JRotate v => if sh_pending s =? 0 then (sh_set_pending v s, [OutRotated v]) else (s, [])
  | JHeader => (s, [OutHeader (if sh_pending s =? 0 then sh_session s else sh_pending s)])
  end.
Fixpoint solos (s : shared) (l : list job) : shared * list out :=
  match l with [] => (s, []) | j :: l => let (s1, o) := solo s j in let (s2, o2) := solos s1 l in (s2, o ++ o2) end.

(** What a thread still does from where it is, alone. *)
Definition andthen (r : shared * list out) (l : list job) : shared * list out := let (s, o) := r in let (s2, o2) := solos s l in (s2, o ++ o2).
Definition compared (s : shared) (h : Z) : shared * list out :=
  if (h =? 0) || (h =? sh_session s) then (s, []) else
  if h =? sh_pending s then (sh_set_pending 0 (sh_set_session h s), [OutEvent HE_EVENT_PENDING_SESSION_ACKNOWLEDGED]) else (s, []).
Definition now (s : shared) (p : place) : shared * list out :=
  match p with
  | Idle => (s, [])
  | Store_first h => let (s1, o) := compared (sh_set_first true s) h in (s1, OutEvent HE_EVENT_FIRST_MESSAGE_RECEIVED :: o)
  | First_event h => let (s1, o) := compared s h in (s1, OutEvent HE_EVENT_FIRST_MESSAGE_RECEIVED :: o)
  | Cmp_session h => compared s h
  | Cmp_pending h => if h =? sh_pending s then (sh_set_pending 0 (sh_set_session h s), [OutEvent HE_EVENT_PENDING_SESSION_ACKNOWLEDGED]) else (s, [])
  | Set_session h => (sh_set_pending 0 (sh_set_session h s), [OutEvent HE_EVENT_PENDING_SESSION_ACKNOWLEDGED])
  | Set_pending => (sh_set_pending 0 s, [OutEvent HE_EVENT_PENDING_SESSION_ACKNOWLEDGED])
  | Ack_event => (s, [OutEvent HE_EVENT_PENDING_SESSION_ACKNOWLEDGED])
  | Inc_frag q id n => (sh_set_frag (u16 (id + 1)) s, map (OutFragment q id) (seq 0 n))
  | Fragment q id i n => (s, map (OutFragment q id) (seq i n))
  | Timer => (sh_set_nudge true s, [OutTimer])
  | Timer_set => (sh_set_nudge true s, [])
  | State_set v => (sh_set_state v s, [OutState v])
  | State_tell => (s, [OutState (sh_state s)])
  | Rotate_set v => (sh_set_pending v s, [OutRotated v])
  | Rotate_done v => (s, [OutRotated v])
  | Header_pending => (s, [OutHeader (sh_pending s)])
  | Header_session => (s, [OutHeader (sh_session s)])
  end.
Lemma alone_step mt s p l s' o t' : tstep mt s (p, l) = Some (s', o, t') ->
  andthen (now s p) l = (fst (andthen (now s' (fst t')) (snd t')), o ++ snd (andthen (now s' (fst t')) (snd t'))).
Proof.
  intros T. destruct mt, p; cbn [tstep] in T; repeat match type of T with
      | match ?l with [] => _ | _ :: _ => _ end = _ => destruct l as [|[] ?]; [discriminate T|..]
      | match ?n with O => _ | S _ => _ end = _ => destruct n
      | Some (if sh_first s then _ else _) = _ => destruct (sh_first s) eqn:?
      end; injection T as <- <- <-; unfold andthen, compared; destruct s as [a b c d e f]; unfold solo; cbn -[u16] in *; subst;
    repeat match goal with |- context [if ?x then _ else _] => destruct x eqn:?; cbn -[u16] in * end; unfold compared; cbn -[u16];
    repeat match goal with |- context [if ?x then _ else _] => destruct x eqn:?; cbn -[u16] in * end; try discriminate.
  all: unfold u16, sh_set_state, sh_set_session, sh_set_pending, sh_set_first, sh_set_nudge, sh_set_frag; cbn [sh_state sh_session sh_pending sh_first sh_nudge sh_frag];
    try match goal with H : (?a =? ?b) = true |- _ => apply Z.eqb_eq in H; subst end;
    repeat match goal with |- context [solos ?x ?y] => destruct (solos x y) end; cbn [fst snd app map seq]; rewrite ?app_nil_r; try reflexivity.
Qed.

(** A thread that runs alone, in either build, does the same as the calls one
    after the other, each to its end. *)
Theorem C32_alone : forall mt l s x, steps mt (s, threads_of [l], []) x -> finished x ->
  (fst (fst x), snd x) = solos s l.
Proof.
  intros mt l s x St Fin.
  assert (exists s1 p l1 log, x = (s1, [(p, l1)], log) /\ solos s l = (fst (andthen (now s1 p) l1), log ++ snd (andthen (now s1 p) l1))) as (s1 & p & l1 & log & -> & Q).
  { pattern x. refine (steps_inv _ St _).
    - intros x0 y0 (s1 & p & l1 & log & -> & Q) St1. remember (s1, [(p, l1)], log) as z eqn:Ez. destruct St1 as [s2 pre t post log2 s' o t' T]. injection Ez as E0 E1 E2. subst s2 log2. destruct pre as [|t1 pre]; [|destruct pre; discriminate E1].
      cbn [app] in E1. injection E1 as Q1 Q2. subst t post. cbn [app]. destruct t' as [p' l']. exists s', p', l', (log ++ o). split; [reflexivity|].
      rewrite Q, (alone_step T). cbn [fst snd]. now rewrite app_assoc.
    - exists s, Idle, l, []. split; [reflexivity|]. unfold andthen, now. destruct (solos s l); reflexivity. }
  unfold finished in Fin. cbn [fst snd] in *. apply Forall_inv in Fin. injection Fin as -> ->. rewrite Q. cbn. now rewrite app_nil_r.
Qed.
Print Assumptions C32_alone.

(** ** Nudge timers *)
Definition is_timeout (j : job) : bool := match j with JTimeout => true | _ => false end.
Definition nudges (ts : list (list job)) : nat := length (filter (fun j => match j with JNudge => true | _ => false end) (concat ts)).
Definition timing (l : list job) : bool := existsb is_timeout l.

Definition left (t : thread) : nat := nudges [snd t].
Definition timed (t : thread) : nat := if match fst t with Timer => true | _ => false end || timing (snd t) then 1 else 0.
Definition credit (run : bool) (t : thread) : nat :=
  match fst t with Timer => 1 | Timer_set => 0 | _ => if run then 0 else timed t end.
Lemma credit_le b t : (credit b t <= timed t)%nat.
Proof. unfold credit, timed. destruct t as [p l]. cbn [fst snd]. destruct p, b; cbn [orb]; destruct (timing l); lia. Qed.
Lemma count_le f g ts : (forall t, (f t <= g t)%nat) -> (count f ts <= count g ts)%nat.
Proof. intros H. unfold count. induction ts as [|t ts IH]; cbn [fold_right]; [lia|]. specialize (H t). lia. Qed.
Lemma nudges_cons j l : nudges [j :: l] = ((match j with JNudge => 1 | _ => 0 end) + nudges [l])%nat.
Proof. unfold nudges. cbn [concat]. rewrite !app_nil_r. destruct j; reflexivity. Qed.

(** [k]: threads that may ask; [n]: nudges in all; [r]: a timer ran at the start. *)
Definition timer_inv (k n : nat) (r : bool) (x : sys) : Prop :=
  let '(s, ts, log) := x in
  (count timed ts <= k)%nat /\
  (times nudged log + count (credit (sh_nudge s)) ts + k * count left ts <= k * n + if r then 0 else k)%nat /\
  (count left ts <= n)%nat.
Lemma timer_kept k n r x y : timer_inv k n r x -> sstep true x y -> timer_inv k n r y.
Proof.
  intros H St. destruct St as [s pre t post log s' o t' T]. destruct H as (I1 & I2 & I3). unfold timer_inv.
  rewrite times_app. rewrite !count_app in *. cbn [count fold_right] in *. fold (count timed post) (count left post) (count (credit (sh_nudge s)) post) (count (credit (sh_nudge s')) post) in *.
  assert ((timed t' <= timed t)%nat /\
    ((left t' = left t /\ (times nudged o + credit (sh_nudge s') t' <= credit (sh_nudge s) t)%nat /\ (sh_nudge s' = false -> sh_nudge s = false)) \/
     (left t = S (left t') /\ o = []))) as (K1 & K2).
  { clear - T. destruct t as [p l]. unfold left, times, nudged. destruct p; cbn [tstep] in T;
      repeat match type of T with
      | match ?l with [] => _ | _ :: _ => _ end = _ => destruct l as [|[] ?]; [discriminate T|..]
      | match ?n with O => _ | S _ => _ end = _ => destruct n
      | Some (if sh_first s then _ else _) = _ => destruct (sh_first s) eqn:?
      end; injection T as <- <- <-; cbn [snd]; rewrite ?nudges_cons; unfold credit, timed; cbn [fst snd];
      destruct s as [a b c d e f]; cbn -[nudges timing];
      repeat match goal with |- context [if ?x then Idle else _] => destruct x eqn:? | |- context [if ?x then _ else Idle] => destruct x eqn:? | |- context [if ?x then Header_session else _] => destruct x eqn:? end;
      cbn -[nudges timing]; repeat match goal with |- context [timing (?j :: ?l)] => change (timing (j :: l)) with (is_timeout j || timing l); cbn [is_timeout orb] end;
      try (set (tl := timing l) in * ); try (set (nl := nudges [l]) in * ); try destruct tl; try destruct e; cbn -[nudges]; (split; [lia|]); first [left; split; [reflexivity|]; split; [lia|]; first [exact (fun H => H)|intros; reflexivity|intros; discriminate]|right; split; reflexivity]. }
  destruct K2 as [(K2 & K3 & K4)|(K2 & ->)].
  - split; [lia|]. split; [|lia]. rewrite K2 in *.
    assert (forall ts, (count (credit (sh_nudge s')) ts <= count (credit (sh_nudge s)) ts)%nat) as M.
    { intros ts. apply count_le. intros u. unfold credit. destruct (fst u); try lia; destruct (sh_nudge s'), (sh_nudge s); try lia; try (specialize (K4 eq_refl); discriminate). }
    pose proof (M pre). pose proof (M post). lia.
  - split; [lia|]. rewrite K2 in *. split; [|lia]. cbn [times filter length].
    assert (forall ts, (count (credit (sh_nudge s')) ts <= count timed ts)%nat) as M by (intros ts; apply count_le, credit_le).
    pose proof (M pre). pose proof (M post). pose proof (credit_le (sh_nudge s') t'). unfold times in *. cbn [filter length]. nia.
Qed.
Lemma nudges_count jobs : count left (threads_of jobs) = nudges jobs.
Proof.
  unfold threads_of. induction jobs as [|l jobs IH]; [reflexivity|]. cbn [map count fold_right]. fold (count left (map (pair Idle) jobs)). rewrite IH. unfold left, nudges. cbn [snd concat].
  now rewrite app_nil_r, filter_app, app_length.
Qed.
Lemma timed_count jobs : count timed (threads_of jobs) = length (filter timing jobs).
Proof.
  unfold threads_of. induction jobs as [|l jobs IH]; [reflexivity|]. cbn [map count fold_right filter]. fold (count timed (map (pair Idle) jobs)). rewrite IH. unfold timed. cbn [fst snd orb].
  destruct (timing l); reflexivity.
Qed.
Lemma credit_count r jobs : count (credit r) (threads_of jobs) = if r then 0%nat else length (filter timing jobs).
Proof.
  destruct r.
  - apply count_0. apply Forall_forall. intros t It. apply in_map_iff in It as (l & <- & _). reflexivity.
  - rewrite <- timed_count. unfold threads_of. induction jobs as [|l jobs IH]; [reflexivity|]. cbn [map count fold_right]. fold (count timed (map (pair Idle) jobs)) (count (credit false) (map (pair Idle) jobs)). now rewrite IH.
Qed.

Definition timer_some (x : sys) : Prop :=
  let '(s, ts, log) := x in
  Forall (fun t : thread => fst t = Timer_set -> (0 < times nudged log)%nat) ts /\ (sh_nudge s = true -> (0 < times nudged log)%nat) /\
  ((0 < times nudged log)%nat \/ Exists (fun t => timed t = 1%nat) ts).
Lemma some_kept x y : timer_some x -> sstep true x y -> timer_some y.
Proof.
  intros H St. destruct St as [s pre t post log s' o t' T]. destruct H as (I1 & I2 & I3). unfold timer_some. rewrite times_app.
  apply Forall_app in I1 as [Ia Ib]. pose proof (Forall_inv Ib) as It. pose proof (Forall_inv_tail Ib) as Ip. cbn beta in It. clear Ib.
  set (m := times nudged log) in *. set (m' := times nudged o).
  assert ((fst t' = Timer_set -> (0 < m + m')%nat) /\ (sh_nudge s' = true -> (0 < m + m')%nat) /\ (timed t = 1%nat -> (0 < m + m')%nat \/ timed t' = 1%nat)) as (K1 & K2 & K3).
  { clear - T It I2. subst m'. destruct t as [p l]. cbn [fst] in It. unfold timed, times, nudged. destruct p; cbn [tstep] in T; try specialize (It eq_refl);
      repeat match type of T with
      | match ?l with [] => _ | _ :: _ => _ end = _ => destruct l as [|[] ?]; [discriminate T|..]
      | match ?n with O => _ | S _ => _ end = _ => destruct n
      | Some (if sh_first s then _ else _) = _ => destruct (sh_first s) eqn:?
      end; injection T as <- <- <-; destruct s as [a b c d e f]; cbn -[timing Nat.add] in *;
      repeat match goal with |- context [timing (?j :: ?l)] => change (timing (j :: l)) with (is_timeout j || timing l); cbn [is_timeout orb] end;
      repeat match goal with |- context [if ?x then Idle else _] => destruct x eqn:? | |- context [if ?x then _ else Idle] => destruct x eqn:? | |- context [if ?x then Header_session else _] => destruct x eqn:? end;
      cbn -[timing Nat.add]; repeat split; intros; try discriminate; try lia; try (specialize (I2 ltac:(assumption)); lia); try (right; assumption); try (left; specialize (I2 eq_refl); lia); auto. }
  split; [|split; [exact K2|]].
  - apply Forall_app. split; [|constructor; [exact K1|]]; (eapply Forall_impl; [|eassumption]); cbn beta; intros u Hu Q; specialize (Hu Q); lia.
  - destruct I3 as [I3|I3]; [left; lia|]. apply Exists_app in I3 as [I3|I3]; [right; apply Exists_app; now left|].
    inversion I3 as [u l1 H1|u l1 H1]; subst; [|right; apply Exists_app; right; now right]. destruct (K3 H1) as [K|K]; [now left|]. right. apply Exists_app. right. now left.
Qed.
(** However calls interleave: every thread that updates the timeout asks the host
    for at most one timer, and one more for every nudge there is (none for the
    first part while a timer runs).  If no timer runs at the start and some thread
    updates the timeout, the host is asked. *)
Theorem C32_timers : forall jobs s x, steps true (s, threads_of jobs, []) x ->
  let askers := length (filter timing jobs) in
  (times nudged (snd x) <= askers * nudges jobs + if sh_nudge s then 0 else askers)%nat /\
  (sh_nudge s = false -> (0 < askers)%nat -> finished x -> (0 < times nudged (snd x))%nat).
Proof.
  intros jobs s x St askers. split.
  - assert (timer_inv askers (nudges jobs) (sh_nudge s) x) as I.
    { eapply steps_inv; [intros ? ?; apply timer_kept|exact St|]. unfold timer_inv. rewrite timed_count, nudges_count, credit_count. fold askers. cbn [times filter length]. unfold times. cbn [filter length].
      destruct (sh_nudge s); lia. }
    destruct x as [[s1 ts] log]. destruct I as (I1 & I2 & I3). cbn [snd]. nia.
  - intros N A Fin.
    assert (timer_some x) as I.
    { eapply steps_inv; [intros ? ?; apply some_kept|exact St|]. split; [|split; [rewrite N; discriminate|right]].
      - apply Forall_forall. intros t It. apply in_map_iff in It as (l & <- & _). discriminate.
      - apply Exists_exists. destruct (filter timing jobs) as [|l ls] eqn:F; [subst askers; cbn in A; lia|].
        assert (In l (filter timing jobs)) as I by (rewrite F; now left). apply filter_In in I as [I1 I2]. exists (Idle, l). split; [now apply in_map|]. unfold timed. cbn [fst snd orb]. now rewrite I2. }
    destruct x as [[s1 ts] log]. destruct I as (_ & _ & [I|I]); [exact I|]. unfold finished in Fin. cbn [fst snd] in *. apply Exists_exists in I as (t & It & Et).
    rewrite Forall_forall in Fin. rewrite (Fin t It) in Et. discriminate Et.
Qed.
Print Assumptions C32_timers.

(** The bound is reached: two threads, one nudge, four timers. *)
Example C32_timers_tight : let x := run_threads true fresh [[JTimeout; JNudge; JTimeout]; [JTimeout; JTimeout]] [0; 1; 0; 1; 0; 1; 0; 0; 1; 0; 1; 0; 1]%nat in
  finished x /\ times nudged (snd x) = 4%nat.
Proof. split; vm_compute; repeat constructor. Qed.
Example C32_alone_holds : let l := [JReceive 8; JSend 5 2; JTimeout; JNudge; JTimeout; JRotate 9; JHeader; JState HE_STATE_DISCONNECTING] in
  let x := run_threads true (Sh HE_STATE_ONLINE 7 8 false false 65535) [l] (repeat 0%nat 40) in
  finished x /\ snd x = [OutEvent HE_EVENT_FIRST_MESSAGE_RECEIVED; OutEvent HE_EVENT_PENDING_SESSION_ACKNOWLEDGED; OutFragment 5 65535 0; OutFragment 5 65535 1; OutTimer; OutTimer; OutRotated 9; OutHeader 9; OutState HE_STATE_DISCONNECTING] /\
  fst (fst x) = Sh HE_STATE_DISCONNECTING 8 9 true true 0.
Proof. split; vm_compute; repeat constructor. Qed.

(** A timer can get lost: the host's timer fires, and nudges in another thread,
    before the call that asked for it has noted that a timer runs.  From then on no
    call asks for a timer, until somebody nudges without having been asked to. *)
Theorem C32_lost_timer_refuted : exists x,
  steps true (fresh, threads_of [[JTimeout]; [JNudge]], []) x /\ finished x /\ snd x = [OutTimer] /\
  forall jobs y, nudges jobs = 0%nat -> steps true (fst (fst x), threads_of jobs, []) y -> times nudged (snd y) = 0%nat.
Proof.
  exists (run_threads true fresh [[JTimeout]; [JNudge]] [0; 0; 1; 0]%nat). split; [apply schedule_steps|]. split; [vm_compute; repeat constructor|]. split; [vm_compute; reflexivity|].
  intros jobs y N St. destruct (C32_timers St) as [B _]. rewrite N, Nat.mul_0_r in B.
  match type of B with context [sh_nudge ?s] => assert (sh_nudge s = true) as Q by (vm_compute; reflexivity) end. rewrite Q in B. lia.
Qed.
Print Assumptions C32_lost_timer_refuted.
