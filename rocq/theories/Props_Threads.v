(** C32: the build for several threads. *)
From Verif Require Import Base Codes Threads.
From Coq Require Import Permutation.
Unset Strict Implicit.

Lemma schedule_steps mt is : forall x, steps mt x (schedule mt is x).
Proof.
  assert (forall x y z, steps mt x y -> steps mt y z -> steps mt x z) as Tr.
  { intros x y z H1 H2. induction H2 as [|y z u H2 IH H3]; [exact H1|]. exact (steps_more (IH H1) H3). }
  induction is as [|i is IH]; intros x; cbn [schedule]; [apply steps_none|]. eapply Tr; [|apply IH]. destruct x as [[s ts] log].
  destruct (nth_error ts i) as [t|] eqn:N; [|apply steps_none]. destruct (tstep mt s t) as [[[s' o] t']|] eqn:T; [|apply steps_none].
  eapply steps_more; [apply steps_none|]. assert (exists pre post, ts = pre ++ t :: post /\ replace i t' ts = pre ++ t' :: post) as (pre & post & -> & ->).
  { clear - N. revert ts N. induction i as [|i IH]; intros [|x ts] N; try discriminate N; cbn in N.
    - injection N as ->. exists [], ts. auto.
    - destruct (IH ts N) as (pre & post & -> & H). exists (x :: pre), post. cbn. now rewrite H. }
  now constructor.
Qed.

(** How often [e] is in a log. *)
Definition is_first (o : out) : bool := match o with OutEvent v => v =? HE_EVENT_FIRST_MESSAGE_RECEIVED | _ => false end.
Definition times (P : out -> bool) (log : list out) : nat := length (filter P log).
Lemma times_app P a b : times P (a ++ b) = (times P a + times P b)%nat.
Proof. unfold times. now rewrite filter_app, app_length. Qed.

(** ** FIRST_MESSAGE_RECEIVED *)
Definition at_event (t : thread) : nat := match fst t with First_event _ => 1 | _ => 0 end.
Definition count (f : thread -> nat) (ts : list thread) : nat := fold_right (fun t n => f t + n)%nat 0%nat ts.
Lemma count_app f a b : count f (a ++ b) = (count f a + count f b)%nat.
Proof. unfold count. induction a as [|t a IH]; [reflexivity|]. cbn [app fold_right]. fold (count f) in *. unfold count in IH. rewrite IH. lia. Qed.
Definition is_receive (j : job) : bool := match j with JReceive _ => true | _ => false end.
Definition plain_place (p : place) : bool := match p with Store_first _ | Inc_frag _ _ _ => false | _ => true end.
Definition first_inv (rcv : bool) (x : sys) : Prop :=
  let '(s, ts, log) := x in
  (times is_first log + count at_event ts = if sh_first s then 1 else 0)%nat /\
  Forall (fun t : thread => plain_place (fst t) = true) ts /\
  (rcv = true -> sh_first s = true \/ exists t, In t ts /\ existsb is_receive (snd t) = true).
Lemma first_kept rcv x y : first_inv rcv x -> sstep true x y -> first_inv rcv y.
Proof.
  intros H St. destruct St as [s pre t post log s' o t' T]. destruct H as (H1 & H2 & H3). unfold first_inv.
  apply Forall_app in H2 as [H2a H2b]. inversion H2b as [|x1 l1 H2t H2p]. subst x1 l1.
  rewrite times_app. rewrite !count_app in *. cbn [count fold_right] in *. fold (count at_event post) in *.
  assert (plain_place (fst t') = true /\ (times is_first o + at_event t' + (if sh_first s then 1 else 0) = at_event t + if sh_first s' then 1 else 0)%nat /\
    (sh_first s = true -> sh_first s' = true) /\ (existsb is_receive (snd t) = true -> sh_first s' = true \/ existsb is_receive (snd t') = true)) as (K1 & K2 & K3 & K4).
  { clear - T H2t. destruct t as [p l]. cbn [fst snd] in *. unfold at_event, times. destruct p; cbn [tstep] in T; try discriminate H2t;
      repeat match type of T with
      | match ?l with [] => _ | _ :: _ => _ end = _ => destruct l as [|[] ?]; [discriminate T|..]
      | match ?n with O => _ | S _ => _ end = _ => destruct n
      | Some (if sh_first s then _ else _) = _ => destruct (sh_first s) eqn:?
      end; injection T as <- <- <-; repeat match goal with |- context [if ?b then Idle else _] => destruct b | |- context [if ?b then _ else Idle] => destruct b | |- context [if ?b then Header_session else _] => destruct b end;
      cbn; repeat match goal with H : sh_first s = _ |- _ => rewrite ?H end; repeat (split; try tauto; try reflexivity; try lia; auto). all: destruct (sh_first s); try lia; auto. }
  repeat split.
  - destruct (sh_first s), (sh_first s'); lia.
  - apply Forall_app. split; [exact H2a|]. constructor; assumption.
  - intros R. destruct (H3 R) as [F|(u & Iu & Eu)]; [left; auto|]. apply in_app_or in Iu. destruct Iu as [Iu|[<-|Iu]].
    + right. exists u. split; [apply in_or_app; now left|exact Eu].
    + destruct (K4 Eu) as [K|K]; [now left|right]. exists t'. split; [apply in_or_app; right; now left|exact K].
    + right. exists u. split; [apply in_or_app; right; now right|exact Eu].
Qed.

Lemma steps_inv mt (I : sys -> Prop) x y : (forall x y, I x -> sstep mt x y -> I y) -> steps mt x y -> I x -> I y.
Proof. intros K H. induction H as [|x y z H IH H1]; intros Ix; [exact Ix|]. eapply K; [exact (IH Ix)|exact H1]. Qed.
Lemma count_0 f ts : Forall (fun t => f t = 0%nat) ts -> count f ts = 0%nat.
Proof. intros H. induction H as [|t ts H _ IH]; [reflexivity|]. unfold count in *. cbn. lia. Qed.

(** Whatever the threads do and however they interleave, the host is told of a
    first message at most once; once all calls have returned, exactly once if one of
    them was given a packet. *)
Theorem C32_first_once jobs s x :
  sh_first s = false -> steps true (s, threads_of jobs, []) x ->
  let told := times is_first (snd x) in
  (told <= 1)%nat /\
  (finished x -> told = if existsb (existsb is_receive) jobs then 1%nat else told).
Proof.
  intros F H told.
  assert (first_inv (existsb (existsb is_receive) jobs) x) as I.
  { eapply steps_inv; [intros ? ?; apply first_kept|exact H|]. unfold first_inv, threads_of. rewrite F. repeat split.
    - rewrite count_0; [reflexivity|]. apply Forall_forall. intros t It. apply in_map_iff in It as (l & <- & _). reflexivity.
    - apply Forall_forall. intros t It. apply in_map_iff in It as (l & <- & _). reflexivity.
    - intros R. right. apply existsb_exists in R as (l & Il & El). exists (Idle, l). split; [now apply in_map|exact El]. }
  destruct x as [[s1 ts] log]. cbn [snd] in told. destruct I as (I1 & I2 & I3). fold told in I1. split; [destruct (sh_first s1); lia|].
  intros Fin. unfold finished in Fin. cbn [fst snd] in Fin. destruct (existsb (existsb is_receive) jobs); [|reflexivity].
  destruct (I3 eq_refl) as [E|(t & It & Et)].
  - rewrite E in I1. rewrite count_0 in I1; [lia|]. eapply Forall_impl; [|exact Fin]. cbn. intros t ->. reflexivity.
  - rewrite Forall_forall in Fin. rewrite (Fin t It) in Et. discriminate Et.
Qed.
Print Assumptions C32_first_once.

(** ** Fragment ids *)
(** The packets a thread still has to send, and how many fragments each has. *)
Definition sends (l : list job) : list (Z * nat) := flat_map (fun j => match j with JSend q n => [(q, n)] | _ => [] end) l.
(** The fragments of a packet in a log, in the order they were sent. *)
Definition of_packet (q : Z) (o : out) : bool := match o with OutFragment r _ _ => r =? q | _ => false end.
Definition sent_of (q : Z) (log : list out) : list out := filter (of_packet q) log.

Definition todo (ts : list thread) : list (Z * nat) := flat_map (fun t => sends (snd t)) ts.
Lemma todo_app a b : todo (a ++ b) = todo a ++ todo b. Proof. apply flat_map_app. Qed.
Lemma todo_of jobs : todo (threads_of jobs) = flat_map sends jobs.
Proof. unfold todo, threads_of. induction jobs as [|l jobs IH]; [reflexivity|]. cbn. now rewrite IH. Qed.

(** [D]: the packets that have drawn an id, in the order they did. *)
Definition drew f0 (D : list Z) (q id : Z) : Prop := exists k, nth_error D k = Some q /\ id = u16 (f0 + Z.of_nat k).
Definition id_inv f0 (all : list Z) (x : sys) : Prop :=
  let '(s, ts, log) := x in exists D,
  sh_frag s = u16 (f0 + Z.of_nat (length D)) /\ Permutation (D ++ map fst (todo ts)) all /\
  Forall (fun t : thread => match fst t with Fragment q id _ _ => drew f0 D q id | Inc_frag _ _ _ => False | _ => True end) ts /\
  (forall q id i, In (OutFragment q id i) log -> drew f0 D q id).
Lemma drew_more f0 D q id r : drew f0 D q id -> drew f0 (D ++ [r]) q id.
Proof. intros (k & N & E). exists k. split; [|exact E]. rewrite nth_error_app1; [exact N|]. apply nth_error_Some. now rewrite N. Qed.
Lemma u16_add a b : u16 (u16 a + b) = u16 (a + b).
Proof. unfold u16. now rewrite Zplus_mod_idemp_l. Qed.

Ltac step_cases T s :=
  repeat match type of T with
      | match ?l with [] => _ | _ :: _ => _ end = _ => destruct l as [|[] ?]; [discriminate T|..]
      | match ?n with O => _ | S _ => _ end = _ => destruct n
      | Some (if sh_first s then _ else _) = _ => destruct (sh_first s) eqn:?
      end; injection T as <- <- <-.
Lemma id_kept f0 all x y : id_inv f0 all x -> sstep true x y -> id_inv f0 all y.
Proof.
  intros H St. destruct St as [s pre t post log s' o t' T]. destruct H as (D & H1 & H2 & H3 & H4). unfold id_inv.
  apply Forall_app in H3 as [H3a H3b]. inversion H3b as [|x1 l1 H3t H3p]. subst x1 l1.
  assert (
    (exists q n, sends (snd t) = (q, n) :: sends (snd t') /\ sh_frag s' = u16 (sh_frag s + 1) /\ fst t' = Fragment q (sh_frag s) 0 n /\ o = []) \/
    (sends (snd t) = sends (snd t') /\ sh_frag s' = sh_frag s /\
     (forall q id i n, fst t' = Fragment q id i n -> exists i0 n0, fst t = Fragment q id i0 n0) /\ (forall q id n, fst t' <> Inc_frag q id n) /\
     (forall q id i, In (OutFragment q id i) o -> exists n0, fst t = Fragment q id i n0))) as K.
  { clear - T H3t. destruct t as [p l]. cbn [fst snd] in *. destruct p; cbn [tstep] in T; try contradiction; step_cases T s; cbn [fst snd].
    all: try (left; exists packet, n; repeat split; reflexivity).
    all: right; split; [reflexivity|split; [reflexivity|]]; split; [|split].
    all: try (intros; discriminate). all: try (intros ? ? ? []; fail).
    all: try (intros ? ? ? [X|[]]; discriminate X).
    all: try (intros; match goal with H : (if ?b then _ else _) = _ |- _ => destruct b; discriminate end).
    all: try (intros; match goal with |- (if ?b then _ else _) <> _ => destruct b; discriminate end).
    - intros ? ? ? ? [= <- <- <- <-]. eauto.
    - intros ? ? ? [[= <- <- <-]|[]]. eauto. }
  destruct K as [(q & n & K1 & K2 & K3 & ->)|(K1 & K2 & K3 & K4 & K5)].
  - exists (D ++ [q]). rewrite K2, H1, u16_add, app_length. cbn [length]. split; [f_equal; lia|]. split; [|split].
    + rewrite !todo_app in *. cbn [todo flat_map] in *. fold (todo post) in *. rewrite K1 in H2. rewrite !map_app in *. cbn [map fst app] in *. rewrite <- H2, <- app_assoc.
      apply Permutation_app_head. cbn [app]. now rewrite <- Permutation_middle.
    + apply Forall_app. split; [|constructor].
      * eapply Forall_impl; [|exact H3a]. intros u. cbn. destruct (fst u); auto using drew_more.
      * rewrite K3. exists (length D). split; [|now rewrite H1]. rewrite nth_error_app2, Nat.sub_diag; [reflexivity|lia].
      * eapply Forall_impl; [|exact H3p]. intros u. cbn. destruct (fst u); auto using drew_more.
    + intros r id i Hi. rewrite app_nil_r in Hi. apply drew_more. eauto.
  - exists D. rewrite K2. split; [exact H1|]. split; [|split].
    + rewrite !todo_app in *. cbn [todo flat_map] in *. fold (todo post) in *. now rewrite <- K1.
    + apply Forall_app. split; [exact H3a|]. constructor; [|exact H3p]. destruct (fst t') eqn:P; try exact I; [edestruct K4; reflexivity|].
      destruct (K3 _ _ _ _ eq_refl) as (i0 & n0 & E). now rewrite E in H3t.
    + intros q id i Hi. apply in_app_or in Hi as [Hi|Hi]; [eauto|]. destruct (K5 _ _ _ Hi) as (n0 & E). now rewrite E in H3t.
Qed.

Lemma NoDup_left {A} (a b : list A) : NoDup (a ++ b) -> NoDup a.
Proof. induction a as [|x a IH]; intros H; constructor; cbn [app] in H; inversion H as [|y l H1 H2]; subst; [|auto]. intros K. apply H1, in_or_app. now left. Qed.

(** Threads that together send at most 65536 packets: fragments of different
    packets carry different ids, and all fragments of a packet the same. *)
Theorem C32_fragment_ids jobs s x :
  0 <= sh_frag s < 65536 -> Z.of_nat (length (flat_map sends jobs)) <= 65536 -> NoDup (map fst (flat_map sends jobs)) ->
  steps true (s, threads_of jobs, []) x ->
  forall q id i q' id' i', In (OutFragment q id i) (snd x) -> In (OutFragment q' id' i') (snd x) -> (id = id' <-> q = q').
Proof.
  intros Hf L ND H q id i q' id' i' I1 I2.
  assert (id_inv (sh_frag s) (map fst (flat_map sends jobs)) x) as I.
  { eapply steps_inv; [intros ? ?; apply id_kept|exact H|]. exists []. cbn [length app Z.of_nat]. rewrite todo_of, Z.add_0_r. split; [symmetry; apply Z.mod_small, Hf|]. split; [reflexivity|].
    split; [|intros ? ? ? []]. apply Forall_forall. intros t It. apply in_map_iff in It as (l & <- & _). exact I. }
  destruct x as [[s1 ts] log]. destruct I as (D & _ & P & _ & I). cbn [snd] in I1, I2.
  destruct (I _ _ _ I1) as (k & N & E), (I _ _ _ I2) as (k' & N' & E').
  assert (NoDup D) as NDD by (eapply NoDup_left, Permutation_NoDup; [symmetry; exact P|exact ND]).
  assert (Z.of_nat (length D) <= 65536) as LD.
  { apply Permutation_length in P. rewrite app_length, !map_length in P. lia. }
  assert (k < length D)%nat as Hk by (apply nth_error_Some; now rewrite N).
  assert (k' < length D)%nat as Hk' by (apply nth_error_Some; now rewrite N').
  split.
  - intros <-. subst id. assert (k = k') as ->; [|congruence]. unfold u16 in E'. apply Nat2Z.inj.
    assert (Z.of_nat k < 65536 /\ Z.of_nat k' < 65536) as [B B'] by lia.
    pose proof (Z.div_mod (sh_frag s + Z.of_nat k) 65536 ltac:(lia)). pose proof (Z.div_mod (sh_frag s + Z.of_nat k') 65536 ltac:(lia)).
    pose proof (Z.mod_pos_bound (sh_frag s + Z.of_nat k) 65536 ltac:(lia)). pose proof (Z.mod_pos_bound (sh_frag s + Z.of_nat k') 65536 ltac:(lia)). change (2 ^ 16) with 65536 in E'. lia.
  - intros <-. rewrite NoDup_nth_error in NDD. assert (k = k') as -> by (apply NDD; [exact Hk|congruence]). congruence.
Qed.
Print Assumptions C32_fragment_ids.

(** ** All fragments of a packet *)
Definition held (t : thread) : list (Z * nat) := (match fst t with Fragment q _ i n => [(q, i + n)%nat] | _ => [] end) ++ sends (snd t).
Definition fine (log : list out) (t : thread) : Prop :=
  match fst t with Fragment q id i _ => sent_of q log = map (OutFragment q id) (seq 0 i) | Inc_frag _ _ _ => False | _ => True end /\
  Forall (fun qn => sent_of (fst qn) log = []) (sends (snd t)).
Definition whole (log : list out) (qn : Z * nat) : Prop := exists id, sent_of (fst qn) log = map (OutFragment (fst qn) id) (seq 0 (snd qn)).
Definition sent_inv (all : list (Z * nat)) (x : sys) : Prop :=
  let '(s, ts, log) := x in exists ready,
  Permutation (ready ++ flat_map held ts) all /\ Forall (whole log) ready /\ Forall (fine log) ts.
Lemma sent_of_app q a b : sent_of q (a ++ b) = sent_of q a ++ sent_of q b. Proof. apply filter_app. Qed.

(** A step of a thread does not concern packets of others. *)
Lemma sent_step s t s' o t' log : tstep true s t = Some (s', o, t') -> NoDup (map fst (held t)) -> fine log t ->
  fine (log ++ o) t' /\
  (exists r, Permutation (r ++ held t') (held t) /\ Forall (whole (log ++ o)) r) /\
  (forall q, ~ In q (map fst (held t)) -> sent_of q o = []).
Proof.
  intros T ND [F1 F2]. destruct t as [p l]. unfold held, fine in *. cbn [fst snd] in *.
  destruct p; cbn [tstep] in T; try contradiction; step_cases T s; cbn [fst snd app] in *; rewrite ?app_nil_r.
  all: try match goal with |- context [if ?b then Idle else _] => destruct b | |- context [if ?b then _ else Idle] => destruct b | |- context [if ?b then Header_session else _] => destruct b end.
  all: try (split; [split; [exact I|try exact F2]|split; [exists []; split; [reflexivity|constructor]|intros; reflexivity]]).
  all: try (eapply Forall_impl; [|exact F2]; intros qn E; rewrite sent_of_app, E; reflexivity).
  - inversion F2 as [|x1 l1 F2a F2b]. subst. split; [split; [exact F2a|exact F2b]|split; [exists []; split; [reflexivity|constructor]|intros; reflexivity]].
  - split; [split; [exact I|exact F2]|split; [|intros; reflexivity]]. exists [(packet, i)]. rewrite Nat.add_0_r. split; [reflexivity|]. constructor; [|constructor]. exists id. exact F1.
  - cbn [map] in ND. inversion ND as [|x1 l1 N1 N2]. subst x1 l1. split; [split|split].
    + rewrite sent_of_app, F1, seq_S, map_app. cbn [sent_of filter of_packet]. rewrite Z.eqb_refl. reflexivity.
    + rewrite Forall_forall in *. intros qn Hq. rewrite sent_of_app, (F2 _ Hq). cbn. destruct (Z.eqb_spec packet (fst qn)) as [->|_]; [|reflexivity]. destruct N1. now apply in_map.
    + exists []. split; [|constructor]. cbn [app]. now rewrite Nat.add_succ_r.
    + intros q Hq. cbn in *. destruct (Z.eqb_spec packet q) as [->|_]; [|reflexivity]. destruct Hq. now left.
Qed.

Lemma sent_kept all x y : NoDup (map fst all) -> sent_inv all x -> sstep true x y -> sent_inv all y.
Proof.
  intros ND H St. destruct St as [s pre t post log s' o t' T]. destruct H as (R & P & W & F). unfold sent_inv.
  apply Forall_app in F as [Fa Fb]. inversion Fb as [|x1 l1 Ft Fp]. subst x1 l1.
  rewrite flat_map_app in P. cbn [flat_map] in P.
  assert (NoDup (map fst (held t ++ (R ++ flat_map held pre ++ flat_map held post)))) as ND1.
  { eapply Permutation_NoDup; [|exact ND]. apply Permutation_map. rewrite <- P. rewrite !app_assoc. apply Permutation_app_tail. rewrite Permutation_app_comm, app_assoc. reflexivity. }
  assert (forall q, In q (map fst (R ++ flat_map held pre ++ flat_map held post)) -> ~ In q (map fst (held t))) as Dis.
  { rewrite map_app in ND1. revert ND1. generalize (map fst (held t)) (map fst (R ++ flat_map held pre ++ flat_map held post)). intros a b N q Ib Ia. clear - N Ia Ib.
    induction a as [|x a IH]; [destruct Ia|]. cbn [app] in N. inversion N as [|y l N1 N2]. subst. destruct Ia as [->|Ia]; [apply N1, in_or_app; now right|auto]. }
  assert (NoDup (map fst (held t))) as NDt by (rewrite map_app in ND1; eapply NoDup_left; exact ND1).
  destruct (sent_step T NDt Ft) as (K1 & (r & Kr & Wr) & K3).
  assert (forall q, In q (map fst (R ++ flat_map held pre ++ flat_map held post)) -> sent_of q (log ++ o) = sent_of q log) as Same.
  { intros q Hq. rewrite sent_of_app, (K3 q (Dis q Hq)). apply app_nil_r. }
  assert (forall u, (forall qn, In qn (held u) -> In qn (R ++ flat_map held pre ++ flat_map held post)) -> fine log u -> fine (log ++ o) u) as Fu.
  { intros u Hu [U1 U2]. unfold fine, held in *. split.
    - destruct (fst u); auto. rewrite Same; [exact U1|]. change packet with (fst (packet, i + n)%nat). apply in_map, Hu. now left.
    - rewrite Forall_forall in *. intros qn Hq. rewrite Same; [exact (U2 _ Hq)|]. apply in_map, Hu, in_or_app. now right. }
  exists (R ++ r). split; [|split].
  - rewrite flat_map_app. cbn [flat_map]. rewrite <- P, <- app_assoc. apply Permutation_app_head. rewrite <- Kr.
    rewrite (Permutation_app_swap_app r (flat_map held pre)). now rewrite <- !app_assoc.
  - apply Forall_app. split; [|exact Wr]. rewrite Forall_forall in *. intros qn Hq. destruct (W _ Hq) as (id & E). exists id. rewrite Same; [exact E|]. apply in_map, in_or_app. now left.
  - apply Forall_app. split; [|constructor; [exact K1|]].
    + rewrite Forall_forall in *. intros u Hu. apply Fu; [|auto]. intros qn Hq. apply in_or_app. right. apply in_or_app. left. apply in_flat_map. eauto.
    + rewrite Forall_forall in *. intros u Hu. apply Fu; [|auto]. intros qn Hq. apply in_or_app. right. apply in_or_app. right. apply in_flat_map. eauto.
Qed.

(** Once all calls have returned, the log has every fragment of every packet
    once, in order, all with the packet's id. *)
Theorem C32_all_fragments jobs s x q n :
  NoDup (map fst (flat_map sends jobs)) -> steps true (s, threads_of jobs, []) x -> finished x ->
  In (q, n) (flat_map sends jobs) -> exists id, sent_of q (snd x) = map (OutFragment q id) (seq 0 n).
Proof.
  intros ND H Fin Hq.
  assert (sent_inv (flat_map sends jobs) x) as I.
  { eapply steps_inv; [intros ? ?; now apply sent_kept|exact H|]. exists []. cbn [app]. split; [|split; [constructor|]].
    - apply Permutation_refl'. clear. unfold threads_of. induction jobs as [|l jobs IH]; [reflexivity|]. cbn [map flat_map]. now rewrite IH.
    - apply Forall_forall. intros t It. apply in_map_iff in It as (l & <- & _). split; [exact I|]. apply Forall_forall. reflexivity. }
  destruct x as [[s1 ts] log]. destruct I as (R & P & W & _). unfold finished in Fin. cbn [fst snd] in *.
  assert (flat_map held ts = []) as E.
  { clear - Fin. induction Fin as [|t ts -> _ IH]; [reflexivity|]. exact IH. }
  rewrite E, app_nil_r in P. rewrite Forall_forall in W. destruct (W (q, n)) as (id & Eq); [eapply Permutation_in; [symmetry; exact P|exact Hq]|]. exists id. exact Eq.
Qed.
Print Assumptions C32_all_fragments.

(** ** What the atomic variables do not give, and what they do *)
Definition fresh : shared := Sh HE_STATE_ONLINE 7 0 false false 65535.
Definition run_threads mt s jobs is : sys := schedule mt is (s, threads_of jobs, []).
Definition nudged : out -> bool := fun o => match o with OutTimer => true | _ => false end.
Definition acked : out -> bool := fun o => match o with OutEvent v => v =? HE_EVENT_PENDING_SESSION_ACKNOWLEDGED | _ => false end.

(** The hypotheses of the theorems above are met: two threads, each with a
    received packet, a packet to send and a nudge; ids wrap round from 65535 to 0. *)
Definition two_jobs : list (list job) := [[JReceive 7; JSend 1 2]; [JReceive 7; JSend 2 2]].
Definition two_run : sys := run_threads true fresh two_jobs [0; 1; 0; 1; 0; 1; 0; 0; 1; 1; 0; 1; 0; 1; 0; 1; 0; 1]%nat.
Example C32_holds_nontrivially :
  finished two_run /\
  snd two_run = [OutEvent HE_EVENT_FIRST_MESSAGE_RECEIVED; OutFragment 1 0 0; OutFragment 2 65535 0; OutFragment 2 65535 1; OutFragment 1 0 1] /\
  NoDup (map fst (flat_map sends two_jobs)) /\ Z.of_nat (length (flat_map sends two_jobs)) <= 65536.
Proof.
  split; [|split; [|split]].
  - vm_compute. repeat constructor.
  - vm_compute. reflexivity.
  - cbn. constructor; [intros [H|[]]; discriminate H|]. constructor; [intros []|constructor].
  - vm_compute. discriminate.
Qed.

(** Without HE_ENABLE_MULTITHREADED both fail, so the two atomic operations matter. *)
Theorem C32_plain_build_refuted :
  (exists x, steps false (fresh, threads_of [[JReceive 7]; [JReceive 7]], []) x /\ times is_first (snd x) = 2%nat) /\
  (exists x, steps false (fresh, threads_of [[JSend 1 1]; [JSend 2 1]], []) x /\ snd x = [OutFragment 1 65535 0; OutFragment 2 65535 0]).
Proof.
  split.
  - exists (run_threads false fresh [[JReceive 7]; [JReceive 7]] [0; 1; 0; 1; 0; 1]%nat). split; [apply schedule_steps|vm_compute; reflexivity].
  - exists (run_threads false fresh [[JSend 1 1]; [JSend 2 1]] [0; 1; 0; 1; 0; 1]%nat). split; [apply schedule_steps|vm_compute; reflexivity].
Qed.
Print Assumptions C32_plain_build_refuted.

(** The bound 65536 is needed: one more packet draws the id of the first. *)
Fixpoint sending (n : nat) (q : Z) : list job := match n with O => [] | S n => JSend q 1 :: sending n (q + 1) end.
Lemma sends_sending n : forall q, sends (sending n q) = map (fun k => (q + Z.of_nat k, 1%nat)) (seq 0 n).
Proof.
  induction n as [|n IH]; intros q; [reflexivity|]. cbn [sending sends flat_map seq map app Z.of_nat]. rewrite Z.add_0_r. f_equal. unfold sends in IH. rewrite IH.
  rewrite <- (seq_shift n 0), map_map. apply map_ext. intros k. f_equal. lia.
Qed.
Lemma sending_runs n : forall q s log, exists ids,
  steps true (s, [(Idle, sending n q)], log) (sh_set_frag (if (n =? 0)%nat then sh_frag s else u16 (sh_frag s + Z.of_nat n)) s, [(Idle, [])], log ++ ids) /\
  (forall k, (k < n)%nat -> nth_error ids k = Some (OutFragment (q + Z.of_nat k) (if (k =? 0)%nat then sh_frag s else u16 (sh_frag s + Z.of_nat k)) 0)).
Proof.
  induction n as [|n IH]; intros q s log.
  - exists []. rewrite app_nil_r. split; [|intros k Hk; lia]. destruct s. apply steps_none.
  - destruct (IH (q + 1) (sh_set_frag (u16 (sh_frag s + 1)) s) (log ++ [OutFragment q (sh_frag s) 0])) as (ids & H & N).
    exists (OutFragment q (sh_frag s) 0 :: ids). split.
    + assert (forall x y z, steps true x y -> steps true y z -> steps true x z) as Tr.
      { intros x y z H1 H2. induction H2 as [|y z u H2 IH2 H3]; [exact H1|]. exact (steps_more (IH2 H1) H3). }
      rewrite <- app_assoc in H. cbn [app] in H. cbn [sh_frag sh_set_frag sh_state sh_session sh_pending sh_first sh_nudge] in H.
      eapply Tr; [eapply steps_more; [eapply steps_more; [eapply steps_more; [apply steps_none|]|]|]|].
      * apply (@sstep_thread true s [] (Idle, sending (S n) q) [] log). reflexivity.
      * apply (@sstep_thread true _ [] _ [] _). reflexivity.
      * apply (@sstep_thread true _ [] _ [] _). reflexivity.
      * cbn [app]. rewrite !app_nil_r. replace (if (S n =? 0)%nat then sh_frag s else u16 (sh_frag s + Z.of_nat (S n))) with (if (n =? 0)%nat then u16 (sh_frag s + 1) else u16 (u16 (sh_frag s + 1) + Z.of_nat n)); [exact H|].
        cbn [Nat.eqb]. destruct n as [|n]; cbn [Nat.eqb]; [f_equal; lia|]. rewrite u16_add. f_equal. lia.
    + intros [|k] Hk; cbn [nth_error]; [cbn; now rewrite Z.add_0_r|]. rewrite N by lia. cbn [Nat.eqb sh_frag sh_set_frag]. f_equal. f_equal; [lia|].
      destruct k as [|k]; cbn [Nat.eqb]; [f_equal; lia|]. rewrite u16_add. f_equal. lia.
Qed.
Theorem C32_id_reuse_refuted : exists jobs x q q' id,
  Z.of_nat (length (flat_map sends jobs)) = 65537 /\ NoDup (map fst (flat_map sends jobs)) /\ steps true (fresh, threads_of jobs, []) x /\
  In (OutFragment q id 0) (snd x) /\ In (OutFragment q' id 0) (snd x) /\ q <> q'.
Proof.
  destruct (sending_runs (Z.to_nat 65537) 0 fresh []) as (ids & H & N).
  exists [sending (Z.to_nat 65537) 0]. eexists. exists 0, 65536, 65535.
  assert (flat_map sends [sending (Z.to_nat 65537) 0] = map (fun k => (0 + Z.of_nat k, 1%nat)) (seq 0 (Z.to_nat 65537))) as E by (cbn [flat_map]; rewrite app_nil_r; apply sends_sending).
  split; [|split; [|split; [exact H|split; [|split]]]].
  - rewrite E, map_length, seq_length. apply Z2Nat.id. lia.
  - rewrite E, map_map. apply FinFun.Injective_map_NoDup; [|apply seq_NoDup]. intros a b Hab. cbn in Hab. lia.
  - cbn [snd app]. apply nth_error_In with (n := 0%nat). rewrite N; [reflexivity|]. lia.
  - cbn [snd app]. apply nth_error_In with (n := Z.to_nat 65536). rewrite N; [|lia]. rewrite Z2Nat.id by lia.
    destruct (Nat.eqb_spec (Z.to_nat 65536) 0) as [X|_]; [lia|]. reflexivity.
  - discriminate.
Qed.
Print Assumptions C32_id_reuse_refuted.

(** Variables that are atomic one by one but used in several steps: two nudge
    timers at once; the same rotation acknowledged twice; a rotation that was
    reported as started and yet is neither pending nor current any more; a state
    reported twice; a packet whose header carries the empty session. *)
Theorem C32_two_timers_refuted : exists x,
  steps true (fresh, threads_of [[JTimeout]; [JTimeout]], []) x /\ finished x /\ times nudged (snd x) = 2%nat.
Proof. exists (run_threads true fresh [[JTimeout]; [JTimeout]] [0; 1; 0; 1; 0; 1]%nat). split; [apply schedule_steps|]. split; vm_compute; repeat constructor. Qed.
Print Assumptions C32_two_timers_refuted.
Definition rotating : shared := Sh HE_STATE_ONLINE 7 8 true false 0.
Theorem C32_acknowledged_twice_refuted : exists x,
  steps true (rotating, threads_of [[JReceive 8]; [JReceive 8]], []) x /\ finished x /\ times acked (snd x) = 2%nat.
Proof. exists (run_threads true rotating [[JReceive 8]; [JReceive 8]] [0; 1; 0; 1; 0; 1; 0; 1; 0; 1; 0; 1; 0; 1]%nat). split; [apply schedule_steps|]. split; vm_compute; repeat constructor. Qed.
Print Assumptions C32_acknowledged_twice_refuted.
Theorem C32_lost_rotation_refuted : exists x,
  steps true (rotating, threads_of [[JReceive 8; JRotate 9]; [JReceive 8]], []) x /\ finished x /\
  In (OutRotated 9) (snd x) /\ sh_pending (fst (fst x)) = 0 /\ sh_session (fst (fst x)) = 8.
Proof.
  exists (run_threads true rotating [[JReceive 8; JRotate 9]; [JReceive 8]] [0; 1; 0; 1; 0; 1; 0; 0; 0; 1; 0; 0; 0; 1; 1]%nat).
  split; [apply schedule_steps|]. split; [vm_compute; repeat constructor|]. vm_compute. split; [tauto|]. split; reflexivity.
Qed.
Print Assumptions C32_lost_rotation_refuted.
Theorem C32_state_twice_refuted : exists x,
  steps true (fresh, threads_of [[JState HE_STATE_DISCONNECTING]; [JState HE_STATE_DISCONNECTING]], []) x /\
  snd x = [OutState HE_STATE_DISCONNECTING; OutState HE_STATE_DISCONNECTING].
Proof. exists (run_threads true fresh [[JState HE_STATE_DISCONNECTING]; [JState HE_STATE_DISCONNECTING]] [0; 1; 0; 1; 0; 1]%nat). split; [apply schedule_steps|vm_compute; reflexivity]. Qed.
Print Assumptions C32_state_twice_refuted.
Theorem C32_empty_session_refuted : exists x,
  steps true (rotating, threads_of [[JHeader]; [JReceive 8]], []) x /\ In (OutHeader 0) (snd x).
Proof. exists (run_threads true rotating [[JHeader]; [JReceive 8]] [0; 1; 1; 1; 1; 1; 0]%nat). split; [apply schedule_steps|]. vm_compute. tauto. Qed.
Print Assumptions C32_empty_session_refuted.
