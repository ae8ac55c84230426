(** C53: the host's allocators (memory.c). *)
From Verif Require Import Base Codes Alloc AllocSpec.
From Coq Require Import Lia.
Unset Strict Implicit.

Lemma run_snoc ops o m r m' : mem_run (ops ++ [o]) m = MDone r m' -> exists r1 m1 r2, mem_run ops m = MDone r1 m1 /\ mem_step o m1 = MDone r2 m'.
Proof.
  revert m. induction ops as [|o' ops IH]; intros m H; cbn [mem_run app] in *.
  - destruct (mem_step o m) as [r2 m2|] eqn:Q; [|discriminate H]. injection H as _ <-. exists 0, m, r2. auto.
  - destruct (mem_step o' m) as [r2 m2|]; [|discriminate H]. exact (IH _ H).
Qed.
Lemma run_app ops ops' m : mem_run (ops ++ ops') m = match mem_run ops m with MDone _ m1 => mem_run ops' m1 | MWrong u => MWrong u end.
Proof. revert m. induction ops as [|o ops IH]; intros m; cbn [mem_run app]; [reflexivity|]. destruct (mem_step o m); auto. Qed.

(** Only he_set_allocators changes what is in force. *)
Lemma perform_ptrs ok w r m ret m' : perform ok w r m = MDone ret m' -> m_ptrs m' = m_ptrs m /\ m_tls m' = m_tls m.
Proof.
  unfold perform. destruct r; repeat match goal with |- context [if ?b then _ else _] => destruct b | |- context [match owner ?a ?b with _ => _ end] => destruct (owner a b) end;
  intros H; try discriminate H; injection H as _ <-; auto.
Qed.
Lemma step_ptrs o m r m' : mem_step o m = MDone r m' -> accepted_set o = false -> m_ptrs m' = m_ptrs m /\ m_tls m' = m_tls m.
Proof.
  destruct o; cbn [mem_step accepted_set]; unfold set_allocators, do_malloc, do_calloc, do_realloc, do_free, stats_alloc, stats_free; intros H A; try exact (perform_ptrs H).
  - rewrite A in H. injection H as _ <-. auto.
  - destruct (p =? 0); [injection H as _ <-; auto|exact (perform_ptrs H)].
Qed.
Lemma run_ptrs ops m r m' : mem_run ops m = MDone r m' -> existsb accepted_set ops = false -> m_ptrs m' = m_ptrs m /\ m_tls m' = m_tls m.
Proof.
  revert m. induction ops as [|o ops IH]; intros m H A; cbn [mem_run existsb] in *; [injection H as _ <-; auto|].
  apply orb_false_iff in A. destruct A as [A1 A2]. destruct (mem_step o m) as [r1 m1|] eqn:Q; [|discriminate H].
  destruct (step_ptrs Q A1) as [<- <-]. now apply IH.
Qed.
Lemma run_force ops r m a b c d : mem_run ops mem_new = MDone r m -> in_force ops a b c d -> m_ptrs m = Ptrs a b c d /\ m_tls m = Tls a d c.
Proof.
  intros H [(before & after & -> & A)|(A & -> & -> & -> & ->)].
  - rewrite run_app in H. destruct (mem_run before mem_new) as [r1 m1|]; [|discriminate H]. cbn [mem_run mem_step] in H. unfold set_allocators in H. cbn [Z.eqb] in H.
    destruct (run_ptrs H A) as [-> ->]. auto.
  - exact (run_ptrs H A).
Qed.

(** No address in use is handed out again. *)
Lemma perform_below ok w q m r m' : perform ok w q m = MDone r m' -> (forall p v, live m p v -> p < m_next m) -> forall p v, live m' p v -> p < m_next m'.
Proof.
  intros E B. assert (forall p0 p v, In (p, v) (forget p0 (m_live m)) -> p < m_next m) as Bf by (intros p0 p v I; apply filter_In in I; destruct I as [I _]; exact (B _ _ I)).
  unfold live in *. unfold perform in E. destruct q; repeat match type of E with context [if ?b then _ else _] => destruct b | context [match owner ?a ?b with _ => _ end] => destruct (owner a b) end;
  try discriminate E; injection E as _ <-; cbn [m_live m_next]; intros p' v'; try (intros [[= <- <-]|I]; [lia|]); try intros I; try (specialize (B _ _ I); lia); specialize (Bf _ _ _ I); lia.
Qed.
Lemma run_below ops r m : mem_run ops mem_new = MDone r m -> forall p v, live m p v -> p < m_next m.
Proof.
  revert r m. induction ops as [|o ops IH] using rev_ind; intros r m H; [injection H as _ <-; intros p v []|].
  destruct (run_snoc H) as (r1 & m1 & r2 & R & St). specialize (IH _ _ R). destruct o; cbn [mem_step] in St; try exact (perform_below St IH).
  - unfold set_allocators in St. destruct (res =? 0); injection St as _ <-; exact IH.
  - unfold stats_free in St. destruct (p =? 0); [injection St as _ <-; exact IH|exact (perform_below St IH)].
Qed.
Lemma run_next ops r m : mem_run ops mem_new = MDone r m -> 0 < m_next m.
Proof.
  revert r m. induction ops as [|o ops IH] using rev_ind; intros r m H; [injection H as _ <-; reflexivity|].
  destruct (run_snoc H) as (r1 & m1 & r2 & R & St). specialize (IH _ _ R).
  assert (forall ok w q, perform ok w q m1 = MDone r2 m -> 0 < m_next m) as P.
  { intros ok w q E. unfold perform in E. destruct q; repeat match type of E with context [if ?b then _ else _] => destruct b | context [match owner ?a ?b with _ => _ end] => destruct (owner a b) end;
    try discriminate E; injection E as _ <-; cbn [m_next]; lia. }
  destruct o; cbn [mem_step] in St; try exact (P _ _ _ St).
  - unfold set_allocators in St. destruct (res =? 0); injection St as _ <-; exact IH.
  - unfold stats_free in St. destruct (p =? 0); [injection St as _ <-; exact IH|exact (P _ _ _ St)].
Qed.

(** After any history, he_malloc, he_calloc, he_realloc and he_free each make one call:
    to the function of that kind given last, or libc's if that was null or none was given,
    with the same arguments; and they return what it returns - null, or a new block of that allocator. *)
Theorem C53_used : forall ops r m a b c d o w q r' m',
  mem_run ops mem_new = MDone r m -> in_force ops a b c d -> due a b c d o = Some (w, q) -> mem_step o m = MDone r' m' ->
  m_calls m' = (w, q) :: m_calls m /\
  (r' <> 0 -> live m' r' w /\ forall v, ~ live m r' v) /\
  (forall p v, live m p v -> live m' p v \/ (exists n, q = RRealloc p n) \/ q = RFree p).
Proof.
  intros ops r m a b c d o w q r' m' R F D St. destruct (run_force R F) as [P _].
  assert (forall v, ~ live m (m_next m) v) as Fr by (intros v I; apply (run_below R) in I; lia).
  assert (perform (match o with MMalloc ok _ | MCalloc ok _ _ | MRealloc ok _ _ => ok | _ => true end) w q m = MDone r' m') as E.
  { destruct o; try discriminate D; cbn [due mem_step] in *; unfold do_malloc, do_calloc, do_realloc, do_free in St; rewrite P in St; cbn [f_malloc f_calloc f_realloc f_free] in St;
    injection D as <- <-; exact St. }
  clear St D. revert E. generalize (match o with MMalloc ok _ | MCalloc ok _ _ | MRealloc ok _ _ => ok | _ => true end). intros ok E.
  assert (forall p p0 v (l : list (Z * who)), In (p, v) l -> In (p, v) (forget p0 l) \/ p = p0) as Fg.
  { intros p p0 v l I. destruct (Z.eqb_spec p p0) as [Q|Q]; [auto|]. left. apply filter_In. split; [exact I|]. cbn. apply Z.eqb_neq in Q. now rewrite Q. }
  unfold perform in E. destruct q.
  - destruct ok; injection E as <- <-; unfold live; cbn; (split; [reflexivity|]); (split; [intros N|]); auto; congruence.
  - destruct ok; injection E as <- <-; unfold live; cbn; (split; [reflexivity|]); (split; [intros N|]); auto; congruence.
  - destruct (p =? 0).
    + destruct ok; injection E as <- <-; unfold live; cbn; (split; [reflexivity|]); (split; [intros N|]); auto; congruence.
    + destruct (owner m p); [|discriminate E]. destruct (who_beq w0 w); [|discriminate E].
      destruct ok; injection E as <- <-; unfold live; cbn; (split; [reflexivity|]); (split; [intros N|]); auto; try congruence.
      intros p' v I. destruct (Fg p' p v _ I) as [H|H]; [auto|]. subst. right. left. eauto.
  - destruct (p =? 0).
    + injection E as <- <-; unfold live; cbn; (split; [reflexivity|]); (split; [congruence|]); auto.
    + destruct (owner m p); [|discriminate E]. destruct (who_beq w0 w); [|discriminate E].
      injection E as <- <-; unfold live; cbn; (split; [reflexivity|]); (split; [congruence|]).
      intros p' v I. destruct (Fg p' p v _ I) as [H|H]; [auto|]. subst. auto.
Qed.
Print Assumptions C53_used.

(** he_set_allocators does all or nothing: refused by wolfSSL it fails and changes
    nothing; accepted, the library and wolfSSL use the same malloc, realloc and free. *)
Theorem C53_set : forall ops r m a b c d, mem_run ops mem_new = MDone r m -> in_force ops a b c d ->
  m_tls m = Tls a d c /\
  forall res a' b' c' d', exists m', mem_step (MSet res a' b' c' d') m = MDone (if res =? 0 then HE_SUCCESS else HE_ERR_INIT_FAILED) m' /\
    m_calls m' = m_calls m /\ m_live m' = m_live m /\ (res <> 0 -> m' = m) /\ (res = 0 -> in_force (ops ++ [MSet res a' b' c' d']) a' b' c' d').
Proof.
  intros ops r m a b c d R F. split; [exact (proj2 (run_force R F))|]. intros res a' b' c' d'. cbn [mem_step]. unfold set_allocators.
  destruct (Z.eqb_spec res 0) as [Q|Q].
  - eexists. split; [reflexivity|]. cbn. split; [reflexivity|]. split; [reflexivity|]. split; [congruence|]. intros _. left. subst res. exists ops, []. auto.
  - exists m. split; [reflexivity|]. split; [reflexivity|]. split; [reflexivity|]. split; [reflexivity|congruence].
Qed.
Print Assumptions C53_set.

(** Blocks are freed with the allocator they came from. *)
Definition uniform (m : mem) : Prop :=
  exists f, m_ptrs m = Ptrs f f f f /\ Forall (fun x => snd x = function f) (m_live m).
Lemma owner_in m p w : owner m p = Some w -> In (p, w) (m_live m).
Proof.
  unfold owner. destruct (find (fun x => fst x =? p) (m_live m)) as [[p' w']|] eqn:Q; [|discriminate]. intros [= ->]. apply find_some in Q. destruct Q as [I E].
  cbn in E. apply Z.eqb_eq in E. now subst.
Qed.
Lemma who_beq_refl w : who_beq w w = true.
Proof. destruct w; cbn; [reflexivity|]. now apply internal_Z_dec_lb. Qed.
Lemma perform_uniform ok f q m : m_ptrs m = Ptrs f f f f -> Forall (fun x => snd x = function f) (m_live m) ->
  match perform ok (function f) q m with MDone _ m' => uniform m' | MWrong u => u = NotLive end.
Proof.
  intros P L. assert (forall p, Forall (fun x => snd x = function f) (forget p (m_live m))) as Lf.
  { intros p. apply Forall_forall. intros x I. apply filter_In in I. destruct I as [I _]. rewrite Forall_forall in L. auto. }
  assert (forall p v, owner m p = Some v -> v = function f) as Ow.
  { intros p v Q. apply owner_in in Q. rewrite Forall_forall in L. exact (L _ Q). }
  unfold perform. destruct q.
  - destruct ok; exists f; cbn; auto.
  - destruct ok; exists f; cbn; auto.
  - destruct (p =? 0); [destruct ok; exists f; cbn; auto|]. destruct (owner m p) as [v|] eqn:Q; [|reflexivity]. rewrite (Ow _ _ Q), who_beq_refl.
    destruct ok; exists f; cbn; auto.
  - destruct (p =? 0); [exists f; cbn; auto|]. destruct (owner m p) as [v|] eqn:Q; [|reflexivity]. rewrite (Ow _ _ Q), who_beq_refl. exists f; cbn; auto.
Qed.
Lemma careful_run ops : careful ops -> existsb by_plugin ops = false -> match mem_run ops mem_new with MDone _ m => uniform m | MWrong u => u = NotLive end.
Proof.
  induction ops as [|o ops IH] using rev_ind; intros Ca Np; [exists None; split; [reflexivity|constructor]|].
  assert (careful ops) as Ca' by (intros before a b c d after ->; apply (Ca before a b c d (after ++ [o])); now rewrite <- app_assoc).
  rewrite existsb_app in Np. apply orb_false_iff in Np. destruct Np as [Np1 Np2]. specialize (IH Ca' Np1). rewrite run_app. destruct (mem_run ops mem_new) as [r m|u] eqn:R; [|exact IH].
  destruct IH as (f & P & L). cbn [mem_run]. cbn [existsb] in Np2. rewrite orb_false_r in Np2.
  assert (match mem_step o m with MDone _ m' => uniform m' | MWrong u => u = NotLive end) as S'.
  { destruct o; try discriminate Np2; cbn [mem_step]; unfold do_malloc, do_calloc, do_realloc, do_free; rewrite ?P; try exact (perform_uniform _ _ P L).
    unfold set_allocators. destruct (Z.eqb_spec res 0) as [Q|Q]; [|exists f; auto]. subst res.
    destruct (Ca ops a b c d [] eq_refl) as (-> & -> & -> & Lv). exists a. split; [reflexivity|]. cbn [m_live]. rewrite (Lv _ _ R). constructor. }
  destruct (mem_step o m) as [r' m'|]; exact S'.
Qed.
(** A host that gives all four functions of one allocator, or none, and changes them
    only while no block is in use: no block is ever given to another allocator than the one it came from. *)
Theorem C53_matched_partial : forall ops, careful ops -> existsb by_plugin ops = false -> mem_run ops mem_new <> MWrong Mismatch.
Proof. intros ops Ca Np H. pose proof (careful_run Ca Np) as U. rewrite H in U. discriminate U. Qed.
Print Assumptions C53_matched_partial.

(** Each condition matters: he_set_allocators accepts a part of an allocator, *)
Theorem C53_mixed_refuted : exists ops, existsb by_plugin ops = false /\
  (forall before a b c d after, ops = before ++ MSet 0 a b c d :: after -> before = []) /\ mem_run ops mem_new = MWrong Mismatch.
Proof.
  exists [MSet 0 (Some 1) None None (Some 1); MCalloc true 1 8; MFree 1]. split; [reflexivity|]. split; [|reflexivity].
  intros before a b c d after H. destruct before as [|x [|y [|z [|]]]]; cbn in H; try discriminate H; reflexivity.
Qed.
Print Assumptions C53_mixed_refuted.
(** and does so while blocks are in use: *)
Theorem C53_midway_refuted : exists ops, existsb by_plugin ops = false /\
  (forall before a b c d after, ops = before ++ MSet 0 a b c d :: after -> b = a /\ c = a /\ d = a) /\ mem_run ops mem_new = MWrong Mismatch.
Proof.
  exists [MCalloc true 1 8; MSet 0 (Some 1) (Some 1) (Some 1) (Some 1); MFree 1]. split; [reflexivity|]. split; [|reflexivity].
  intros before a b c d after H. destruct before as [|x [|y [|z [|]]]]; cbn in H; try discriminate H. injection H as _ <- <- <- <- _. auto.
Qed.
Print Assumptions C53_midway_refuted.
(** The statistics plugin never uses the host's functions, whatever is in force: its
    memory is libc's. *)
Theorem C53_plugin_refuted : forall ops r m size, mem_run ops mem_new = MDone r m ->
  exists r' m', mem_step (MStats true size) m = MDone r' m' /\ m_calls m' = (Libc, RCalloc 1 size) :: m_calls m /\ live m' r' Libc.
Proof. intros ops r m size _. eexists _, _. split; [reflexivity|]. unfold live. cbn. auto. Qed.
Print Assumptions C53_plugin_refuted.
(** It gives back exactly what it took, to libc; without data it does nothing. *)
Theorem C53_plugin_freed : forall ops r m size p m1, mem_run ops mem_new = MDone r m -> mem_step (MStats true size) m = MDone p m1 ->
  p <> 0 /\ mem_step (MStatsFree 0) m = MDone 0 m /\
  exists m2, mem_step (MStatsFree p) m1 = MDone 0 m2 /\ m_calls m2 = (Libc, RFree p) :: m_calls m1 /\ m_live m2 = m_live m.
Proof.
  intros ops r m size p m1 R St. injection St as <- <-.
  assert (0 < m_next m) as N by (apply (run_next R)).
  split; [lia|]. split; [reflexivity|]. cbn [mem_step]. unfold stats_free. destruct (Z.eqb_spec (m_next m) 0); [lia|]. cbn [perform]. unfold owner. cbn [m_live find fst].
  destruct (Z.eqb_spec (m_next m) 0); [lia|]. rewrite Z.eqb_refl. cbn [who_beq]. eexists. split; [reflexivity|]. split; [reflexivity|]. cbn [m_live forget filter fst]. rewrite Z.eqb_refl. cbn [negb].
  assert (forall q v, In (q, v) (m_live m) -> q < m_next m) as B by (intros q v I; apply (run_below R) in I; lia).
  clear - B. induction (m_live m) as [|[q v] l IH]; [reflexivity|]. cbn [filter fst]. destruct (Z.eqb_spec q (m_next m)) as [E|_]; [specialize (B q v (or_introl eq_refl)); lia|]. cbn [negb]. f_equal. apply IH. intros q' v' I. apply (B q' v'). now right.
Qed.
Print Assumptions C53_plugin_freed.

(** A careful host: libc first, then its own allocator once everything is freed; a refused
    change in between. *)
Definition careful_ops : list mem_op :=
  [MCalloc true 1 8; MRealloc true 1 16; MFree 2; MSet 0 (Some 5) (Some 5) (Some 5) (Some 5); MMalloc true 3; MSet (-1) None None None None; MRealloc false 3 9; MFree 3].
Example C53_example : careful careful_ops /\ existsb by_plugin careful_ops = false /\ in_force careful_ops (Some 5) (Some 5) (Some 5) (Some 5) /\
  match mem_run careful_ops mem_new with MDone _ m => m_calls m = [(Host 5, RFree 3); (Host 5, RRealloc 3 9); (Host 5, RMalloc 3); (Libc, RFree 2); (Libc, RRealloc 1 16); (Libc, RCalloc 1 8)] | _ => False end.
Proof.
  split; [|split; [reflexivity|split; [|reflexivity]]].
  - intros before a b c d after H. unfold careful_ops in H.
    do 9 (destruct before as [|? before]; cbn in H; [try discriminate H; try (injection H as <- <- <- <- _; repeat (split; [reflexivity|]); intros r m Q; vm_compute in Q; injection Q as _ <-; reflexivity)|try discriminate H; injection H as <- H]).
  - left. exists [MCalloc true 1 8; MRealloc true 1 16; MFree 2], [MMalloc true 3; MSet (-1) None None None None; MRealloc false 3 9; MFree 3]. split; reflexivity.
Qed.
