(** C47: several connections and threads: whose datagram wolfSSL gets, whose error is shown. *)
From Verif Require Import Base Codes Ctx ConnState Conn Local LocalSpec.
Unset Strict Implicit.

(** Only the actions on the same variables matter. *)
Lemma after_slot mt h : forall m k, after mt h m k = fold_left (act_on mt) (filter (fun a => who mt a =? k) h) (m k).
Proof.
  induction h as [|a h IH]; intros m k; [reflexivity|]. cbn [after filter]. rewrite IH. rewrite (Z.eqb_sym (who mt a) k). now destruct (k =? who mt a).
Qed.
Lemma who_thread a : who true a = thread_of a.
Proof. now destruct a. Qed.
Lemma who_conn a : who false a = conn_of a.
Proof. now destruct a. Qed.
Lemma filter_same A (f g : A -> bool) l : (forall a, f a = g a) -> filter f l = filter g l.
Proof. intros H. induction l as [|a l IH]; [reflexivity|]. cbn. now rewrite H, IH. Qed.

(** The current call, forwards. *)
Definition cstep (t : Z) (cur : option (Z * bytes)) (a : action) : option (Z * bytes) :=
  match a with
  | Accept t' c d => if t' =? t then Some (c, d) else cur
  | Return t' c => if t' =? t then None else cur
  | _ => cur
  end.
Lemma current_fold t h : current t (rev h) = fold_left (cstep t) h None.
Proof.
  induction h as [|a h IH] using rev_ind; [reflexivity|]. rewrite rev_app_distr, fold_left_app. cbn [rev app fold_left]. rewrite <- IH.
  destruct a; reflexivity.
Qed.
Lemma cstep_other t h : forall cur, fold_left (cstep t) h cur = fold_left (cstep t) (filter (fun a => thread_of a =? t) h) cur.
Proof.
  induction h as [|a h IH]; intros cur; [reflexivity|]. cbn [filter]. destruct (thread_of a =? t) eqn:Q; cbn [fold_left]; [apply IH|].
  rewrite IH. f_equal. destruct a; cbn [thread_of cstep] in *; now rewrite ?Q.
Qed.

(** Nothing is left to read. *)
Definition quiet (s : slot) : Prop := sl_packet s = None \/ sl_seen s = true.
Definition inner (t c : Z) (x : does) : action := match x with DoRead sz => Read t c sz | DoFail err => Fail t c err end.
Lemma read_quiet mt s sz : quiet s -> quiet (fst (read mt s sz)) /\ sl_packet (fst (read mt s sz)) = sl_packet s /\ exists r, snd (read mt s sz) = Value r [] /\ r <= 0.
Proof.
  intros Q. unfold read. destruct (sz <? 0); [split; [exact Q|split; [reflexivity|exists WOLFSSL_CBIO_ERR_GENERAL; split; [reflexivity|unfold WOLFSSL_CBIO_ERR_GENERAL; lia]]]|].
  assert (forall r, r = WOLFSSL_CBIO_ERR_WANT_READ -> quiet s /\ sl_packet s = sl_packet s /\ exists r0, Value r [] = Value r0 [] /\ r0 <= 0) as K.
  { intros r ->. split; [exact Q|]. split; [reflexivity|]. eexists. split; [reflexivity|]. unfold WOLFSSL_CBIO_ERR_WANT_READ. lia. }
  destruct (negb (available mt s)); [now apply K|]. destruct (sl_seen s) eqn:Sn; [now apply K|]. destruct Q as [Q|Q]; [|congruence]. cbv zeta. pose proof (K _ eq_refl) as K1. rewrite Q. cbn [fst snd]. destruct K1 as (K1 & _ & K3). auto.
Qed.
Lemma inner_quiet mt t c l : forall s, quiet s -> quiet (fold_left (act_on mt) (map (inner t c) l) s).
Proof.
  induction l as [|x l IH]; intros s Q; [exact Q|]. cbn [map fold_left]. apply IH. destruct x; cbn [inner act_on]; [now apply read_quiet|]. exact Q.
Qed.
Lemma inner_cur t c l : forall cur, fold_left (cstep t) (map (inner t c) l) cur = cur.
Proof. induction l as [|x l IH]; intros cur; [reflexivity|]. cbn [map fold_left]. rewrite IH. now destruct x. Qed.
(** During a call with a datagram: the variables hold it, and it is live. *)
Definition holds (s : slot) (c : Z) (d : bytes) : Prop := sl_packet s = Some (c, d) /\ sl_live s = true.
Lemma read_holds mt s sz c d : holds s c d -> holds (fst (read mt s sz)) c d /\ (sl_seen s = true -> sl_seen (fst (read mt s sz)) = true) /\ (0 <= sz -> sl_seen (fst (read mt s sz)) = true) /\
  ((exists r, snd (read mt s sz) = Value r [] /\ r <= 0) \/ (snd (read mt s sz) = Value (len d) d /\ sl_seen s = false)).
Proof.
  intros [P L]. unfold read. destruct (Z.ltb_spec sz 0) as [Z0|Z0].
  - cbn. split; [split; assumption|]. split; [auto|]. split; [lia|]. left. eexists. split; [reflexivity|]. unfold WOLFSSL_CBIO_ERR_GENERAL. lia.
  - unfold available. rewrite P. assert (forall m, WOLFSSL_CBIO_ERR_WANT_READ <= m + 0 -> exists r, Value WOLFSSL_CBIO_ERR_WANT_READ [] = Value r [] /\ r <= 0) as K.
    { intros _ _. eexists. split; [reflexivity|]. unfold WOLFSSL_CBIO_ERR_WANT_READ. lia. }
    destruct (sl_seen s) eqn:Sn.
    + replace (negb (if mt then negb true else true)) with mt by now destruct mt. destruct mt; cbn; (split; [split; assumption|]; split; [auto|]; split; [auto|]; left; apply (K WOLFSSL_CBIO_ERR_WANT_READ); lia).
    + replace (negb (if mt then negb false else true)) with false by now destruct mt. cbv zeta. rewrite L. destruct (_ <? _); cbn.
      * split; [split; auto|]. split; [auto|]. split; [auto|]. left. exists 0. split; [reflexivity|lia].
      * split; [split; auto|]. split; [auto|]. split; [auto|]. right. auto.
Qed.
Lemma inner_holds mt t c d l : forall s, holds s c d -> holds (fold_left (act_on mt) (map (inner t c) l) s) c d /\
  (sl_seen s = true \/ (exists sz, In (DoRead sz) l /\ 0 <= sz) -> sl_seen (fold_left (act_on mt) (map (inner t c) l) s) = true).
Proof.
  induction l as [|x l IH]; intros s H; [split; [exact H|]; intros [S|(z & [] & _)]; exact S|]. cbn [map fold_left].
  destruct x as [sz|err]; cbn [inner act_on].
  - destruct (read_holds mt sz H) as (H1 & S1 & S2 & _). destruct (IH _ H1) as [H2 S3]. split; [exact H2|]. intros [S|(z & [Q|I] & P)]; apply S3.
    + left. now apply S1.
    + left. injection Q as ->. now apply S2.
    + right. eauto.
  - assert (holds (Slot (sl_packet s) (sl_live s) (sl_seen s) err) c d) as H1 by exact H. destruct (IH _ H1) as [H2 S3]. split; [exact H2|].
    intros [S|(z & [Q|I] & P)]; apply S3; [now left|discriminate Q|right; eauto].
Qed.
Lemma acts_inner t k : acts_of t k = (match k_given k with Some d => [Accept t (k_conn k) d] | None => [] end) ++ map (inner t (k_conn k)) (k_does k) ++ (match k_given k with Some d => [Return t (k_conn k)] | None => [] end).
Proof. reflexivity. Qed.
(** A whole call. *)
Lemma whole_call mt t k s : prompt k -> quiet s -> quiet (fold_left (act_on mt) (acts_of t k) s) /\ fold_left (cstep t) (acts_of t k) None = None.
Proof.
  intros P Q. rewrite acts_inner. destruct (k_given k) as [d|] eqn:G.
  - cbn [app fold_left act_on cstep]. rewrite Z.eqb_refl, !fold_left_app. cbn [fold_left act_on cstep]. rewrite Z.eqb_refl. split; [|reflexivity].
    match goal with |- context[fold_left (act_on mt) _ ?x] => assert (holds x (k_conn k) d) as H by (split; reflexivity) end.
    destruct (inner_holds mt t (k_does k) H) as [[H1 H2] H3]. rewrite H1, Z.eqb_refl. right. cbn. apply H3. right.
    destruct P as [P|P]; [congruence|exact P].
  - cbn [app]. rewrite app_nil_r. split; [now apply inner_quiet|apply inner_cur].
Qed.
Lemma split_prefix A (l1 : list A) : forall l2 l3 l4 x, l1 ++ x :: l2 = l3 ++ l4 -> (exists l, l1 = l3 ++ l /\ l4 = l ++ x :: l2) \/ (exists l, l3 = l1 ++ x :: l /\ l2 = l ++ l4).
Proof.
  induction l1 as [|a l1 IH]; intros l2 l3 l4 x H.
  - destruct l3 as [|b l3]; cbn in H; [left; exists []; auto|]. injection H as -> ->. right. exists l3. auto.
  - destruct l3 as [|b l3]; cbn in H; [left; exists (a :: l1); auto|]. injection H as -> H. destruct (IH _ _ _ _ H) as [(l & -> & ->)|(l & -> & ->)]; [left|right]; exists l; auto.
Qed.
(** A read inside a call. *)
Lemma inside_of_call mt t k s pre c sz more : prompt k -> quiet s -> acts_of t k = pre ++ Read t c sz :: more ->
  let s' := fold_left (act_on mt) pre s in
  (exists r, snd (read mt s' sz) = Value r [] /\ r <= 0) \/
  (exists d, snd (read mt s' sz) = Value (len d) d /\ fold_left (cstep t) pre None = Some (c, d)).
Proof.
  intros P Q H s'. rewrite acts_inner in H. destruct (k_given k) as [d|] eqn:G.
  - destruct pre as [|a pre]; cbn [app] in H; [discriminate H|]. injection H as <- H. symmetry in H. destruct (split_prefix H) as [(l & -> & X)|(l & X & ->)].
    + destruct l as [|y l]; [discriminate X|]. injection X as _ X. destruct l; discriminate X.
    + assert (exists p q, k_does k = p ++ DoRead sz :: q /\ pre = map (inner t (k_conn k)) p /\ c = k_conn k) as (p & q & K1 & -> & ->).
      { clear -X. revert pre X. generalize (k_does k). induction l0 as [|x xs IH]; intros pre X; [destruct pre; discriminate X|].
        destruct pre as [|a pre]; cbn [map app] in X.
        - injection X as X _. destruct x as [z|z]; [|discriminate X]. injection X as <- <-. exists [], xs. auto.
        - injection X as <- X. destruct (IH _ X) as (p & q & -> & -> & ->). exists (x :: p), q. auto. }
      subst s'. cbn [fold_left act_on cstep]. rewrite Z.eqb_refl. match goal with |- context[fold_left (act_on mt) _ ?x] => assert (holds x (k_conn k) d) as Hd by (split; reflexivity) end.
      destruct (inner_holds mt t p Hd) as [H1 _]. destruct (read_holds mt sz H1) as (_ & _ & _ & [R|[R _]]); [left; exact R|]. right. exists d. split; [exact R|]. apply inner_cur.
  - cbn [app] in H. rewrite app_nil_r in H. left.
    assert (exists p, pre = map (inner t (k_conn k)) p) as (p & ->).
    { clear -H. revert pre H. generalize (k_does k). induction l as [|x xs IH]; intros pre X; [destruct pre; discriminate X|].
      destruct pre as [|a pre]; [exists []; reflexivity|]. cbn [map app] in X. injection X as <- X. destruct (IH _ X) as (p & ->). exists (x :: p). reflexivity. }
    apply read_quiet. now apply inner_quiet.
Qed.
Lemma inside_of_calls mt t c sz rest ks : forall s pre, Forall prompt ks -> quiet s -> pre ++ Read t c sz :: rest = flat_map (acts_of t) ks ->
  let s' := fold_left (act_on mt) pre s in
  (exists r, snd (read mt s' sz) = Value r [] /\ r <= 0) \/
  (exists d, snd (read mt s' sz) = Value (len d) d /\ fold_left (cstep t) pre None = Some (c, d)).
Proof.
  induction ks as [|k ks IH]; intros s pre F Q H; [destruct pre; discriminate H|]. inversion F as [|? ? P F']; subst. cbn [flat_map] in H.
  destruct (split_prefix H) as [(l & -> & X)|(l & X & _)].
  - cbv zeta. rewrite !fold_left_app. destruct (@whole_call mt t k s P Q) as [Q1 C1]. rewrite C1. apply IH; auto.
  - eapply inside_of_call; eauto.
Qed.

(** ** Multithreaded build: every thread reads its own call's datagram *)
(** As long as wolfSSL reads during every call that brings a datagram: at any
    moment of any interleaving of any threads, what wolfSSL gets for a connection
    is nothing, or the datagram of the very call it is working for, on this
    connection; never another connection's and never through a stale pointer. *)
Theorem C47_own_datagram_partial : forall calls h t c sz, (forall t, Forall prompt (calls t)) -> interleaved calls (h ++ [Read t c sz]) ->
  (exists r, answered true h t c sz = Value r [] /\ r <= 0) \/
  (exists d, answered true h t c sz = Value (len d) d /\ current t (rev h) = Some (c, d)).
Proof.
  intros calls h t c sz P I. destruct (I t) as (rest & H). rewrite filter_app in H. cbn [filter thread_of] in H. rewrite Z.eqb_refl, <- app_assoc in H. cbn [app] in H.
  pose proof (@inside_of_calls true t c sz rest (calls t) slot0 _ (P t) (or_introl eq_refl) H) as K. cbv zeta in K.
  unfold answered, key. rewrite after_slot, current_fold, cstep_other. rewrite (filter_same (f := fun a => who true a =? t) (g := fun a => thread_of a =? t)) by (intros a; now rewrite who_thread). exact K.
Qed.
Print Assumptions C47_own_datagram_partial.

(** ** The plain build *)
(** Each connection only ever gets datagrams that were passed for it. *)
Lemma plain_owner l c : Forall (fun a => conn_of a = c) l -> forall s, (forall c' d, sl_packet s = Some (c', d) -> c' = c) ->
  (forall c' d, sl_packet (fold_left (act_on false) l s) = Some (c', d) -> c' = c /\ (sl_packet s = Some (c', d) \/ exists t, In (Accept t c d) l)).
Proof.
  induction 1 as [|a l Ha F IH]; intros s Hs c' d P; [split; [eauto|left; exact P]|]. cbn [fold_left] in P.
  assert (sl_packet (act_on false s a) = sl_packet s \/ exists t d0, a = Accept t c d0 /\ sl_packet (act_on false s a) = Some (c, d0)) as [K|(t & d0 & -> & K)].
  { destruct a as [t c0 d0|t c0|t c0 sz|t c0 err]; cbn [conn_of] in Ha; subst c0; cbn [act_on].
    - right. exists t, d0. auto.
    - left. destruct (sl_packet s) as [[c1 d1]|] eqn:Q; [|now rewrite Q]. destruct (c1 =? c); cbn; now rewrite ?Q.
    - left. unfold read. repeat match goal with |- context[if ?b then _ else _] => destruct b end; cbn; auto; destruct (sl_packet s) as [[? ?]|] eqn:Q; cbn; rewrite ?Q; auto;
        repeat match goal with |- context[if ?b then _ else _] => destruct b end; cbn; rewrite ?Q; auto.
    - now left. }
  - destruct (IH (act_on false s a)) with (c' := c') (d := d) as [A B]; [rewrite K; exact Hs|exact P|]. split; [exact A|]. rewrite K in B. destruct B as [B|(t & B)]; [auto|right; exists t; now right].
  - destruct (IH (act_on false s (Accept t c d0))) with (c' := c') (d := d) as [A B]; [rewrite K; intros ? ? [= <- _]; reflexivity|exact P|]. split; [exact A|].
    destruct B as [B|(t' & B)]; [right; exists t; left; rewrite K in B; now injection B as -> ->|right; exists t'; now right].
Qed.
Theorem C47_plain : forall h t c sz r d, answered false h t c sz = Value r d -> d <> [] -> r = len d /\ passed c d h.
Proof.
  intros h t c sz r d H N. unfold answered, key in H. rewrite after_slot in H. set (l := filter _ h) in H.
  assert (Forall (fun a => conn_of a = c) l) as F.
  { apply Forall_forall. intros a Ia. apply filter_In in Ia as [_ Q]. apply Z.eqb_eq in Q. now rewrite who_conn in Q. }
  pose proof (@plain_owner l c F slot0 ltac:(intros ? ? X; discriminate X)) as K. set (s := fold_left _ l slot0) in *.
  unfold read in H. destruct (sz <? 0); [cbn in H; congruence|]. destruct (negb _); [cbn in H; congruence|]. destruct (sl_seen s); [cbn in H; congruence|]. cbv zeta in H.
  destruct (sl_packet s) as [[c' d']|] eqn:P; [|cbn in H; congruence]. destruct (_ <? _); [cbn in H; congruence|]. destruct (sl_live s); [|discriminate H]. cbn in H. injection H as <- ->.
  split; [reflexivity|]. destruct (K _ _ eq_refl) as [-> [X|(t' & I)]]; [discriminate X|]. exists t'. apply filter_In in I. apply I.
Qed.
Print Assumptions C47_plain.
(** The plain build's read is the one of the model of a connection. *)
Theorem C47_plain_refines : forall sz w, c_wolf_ctx (w_c w) = true ->
  let r := c_rx (w_c w) in
  let s := Slot (match rx_data r with Some d => Some (0, d) | None => None end) (rx_live r) (rx_seen r) 0 in
  match dtls_read sz w, read false s sz with
  | Done (v, d) w', (s', Value v' d') => v = v' /\ d = d' /\ rx_seen (c_rx (w_c w')) = sl_seen s' /\ rx_live (c_rx (w_c w')) = sl_live s' /\ rx_data (c_rx (w_c w')) = option_map snd (sl_packet s')
  | Stuck UB_stale _, (_, Stale) => True
  | _, _ => False
  end.
Proof.
  intros sz w C r s. unfold dtls_read, read, bind, get. rewrite C. cbn [negb]. rewrite orb_false_r. fold r. subst s.
  destruct (sz <? 0); [unfold ret; cbn; fold r; destruct (rx_data r); auto|]. cbn [available sl_packet sl_seen sl_live sl_err].
  destruct (rx_data r) as [d|] eqn:D; cbn [negb]; [|cbn; fold r; rewrite D; auto]. destruct (rx_seen r) eqn:Sn; [cbn; fold r; rewrite D, Sn; auto|].
  destruct (sz <? len d); [cbn; rewrite D; auto|]. destruct (rx_live r) eqn:Lv; cbn; [rewrite D, Lv; auto|exact I].
Qed.
Print Assumptions C47_plain_refines.

(** ** No datagram is read twice *)
(** In both builds: once wolfSSL has asked, it gets nothing more until the next
    datagram is passed. *)
Lemma read_done mt s sz : 0 <= sz -> quiet (fst (read mt s sz)).
Proof.
  intros Z0. unfold read. destruct (Z.ltb_spec sz 0); [lia|]. destruct (available mt s) eqn:A; cbn [negb].
  - destruct (sl_seen s) eqn:Sn; [right; exact Sn|]. cbv zeta. destruct (sl_packet s) as [[c d]|] eqn:P; [|left; exact P]. destruct (_ <? _); [right; reflexivity|]. destruct (sl_live s); right; reflexivity.
  - revert A. unfold available. destruct (sl_packet s) eqn:P; [|intros _; left; exact P]. destruct mt; [|discriminate]. intros A. right. cbn. now apply negb_false_iff in A.
Qed.
Lemma keep_quiet mt l : Forall (fun a => match a with Accept _ _ _ => False | _ => True end) l -> forall s, quiet s -> quiet (fold_left (act_on mt) l s).
Proof.
  induction 1 as [|a l Ha F IH]; intros s Q; [exact Q|]. cbn [fold_left]. apply IH. destruct a as [t c d|t c|t c sz|t c err]; [destruct Ha| | |exact Q]; cbn [act_on].
  - destruct (sl_packet s) as [[c1 d1]|] eqn:P; [|exact Q]. destruct (c1 =? c); [|exact Q]. destruct Q as [Q|Q]; [congruence|right; exact Q].
  - now apply read_quiet.
Qed.
Theorem C47_once : forall mt h t c sz h2 t' c' sz', 0 <= sz -> key mt t' c' = key mt t c ->
  (forall t1 c1 d, In (Accept t1 c1 d) h2 -> key mt t1 c1 <> key mt t c) ->
  exists r, answered mt (h ++ Read t c sz :: h2) t' c' sz' = Value r [] /\ r <= 0.
Proof.
  intros mt h t c sz h2 t' c' sz' Z0 K N. unfold answered. rewrite K, after_slot, filter_app, fold_left_app. cbn [filter who]. rewrite Z.eqb_refl. cbn [fold_left act_on].
  apply read_quiet. apply keep_quiet; [|now apply read_done]. apply Forall_forall. intros a I. apply filter_In in I as [I Q]. destruct a as [t1 c1 d| | |]; auto.
  apply (N _ _ _ I). now apply Z.eqb_eq in Q.
Qed.
Print Assumptions C47_once.

(** A datagram that was accepted is what wolfSSL reads next, if it asks for enough. *)
Theorem C47_first : forall mt h t c d h2 sz, len d <= sz ->
  (forall a, In a h2 -> key mt (thread_of a) (conn_of a) = key mt t c -> match a with Fail _ _ _ => True | Read _ _ z => z < 0 | _ => False end) ->
  answered mt (h ++ Accept t c d :: h2) t c sz = Value (len d) d.
Proof.
  intros mt h t c d h2 sz L N. unfold answered. rewrite after_slot, filter_app, fold_left_app. cbn [filter who]. rewrite Z.eqb_refl. cbn [fold_left act_on].
  set (s0 := fold_left _ _ slot0).
  assert (forall l s, (forall a, In a l -> match a with Fail _ _ _ => True | Read _ _ z => z < 0 | _ => False end) -> sl_packet s = Some (c, d) -> sl_live s = true -> sl_seen s = false ->
    let s' := fold_left (act_on mt) l s in sl_packet s' = Some (c, d) /\ sl_live s' = true /\ sl_seen s' = false) as G.
  { induction l as [|a l IH]; intros s F P Lv Sn; [now cbn|]. cbn [fold_left]. apply IH; [intros b Ib; apply F; now right| | |];
    specialize (F a (or_introl eq_refl)); (destruct a as [? ? ?|? ?|? ? z|? ? ?]; try contradiction; cbn [act_on sl_packet sl_live sl_seen]; try assumption; unfold read; apply Z.ltb_lt in F; rewrite F; assumption). }
  match goal with |- context [fold_left _ ?l ?s] => destruct (G l s) as (P & Lv & Sn); try reflexivity end.
  { intros a I. apply filter_In in I as [I Q]. apply N; [exact I|]. apply Z.eqb_eq in Q. rewrite <- Q. destruct a; reflexivity. }
  unfold read. pose proof (len_nonneg d). destruct (Z.ltb_spec sz 0); [lia|]. unfold available. rewrite P, Sn, Lv. cbn [negb]. destruct mt; cbn [negb]; destruct (Z.ltb_spec sz (len d)); try lia; reflexivity.
Qed.
Print Assumptions C47_first.

(** ** The detail of TLS errors *)
(** he_conn_get_ssl_error: in the multithreaded build the last error any call of
    this thread reported, whatever connection it was for; in the plain build the
    last one on this connection, from whatever thread. *)
Lemma err_fold mt l : forall s, sl_err (fold_left (act_on mt) l s) = fold_left (fun e a => match a with Fail _ _ err => err | _ => e end) l (sl_err s).
Proof.
  induction l as [|a l IH]; intros s; [reflexivity|]. cbn [fold_left]. rewrite IH. f_equal. destruct a; cbn [act_on]; try reflexivity.
  - destruct (sl_packet s) as [[c1 d1]|]; [|reflexivity]. now destruct (c1 =? c).
  - unfold read. destruct (sz <? 0); [reflexivity|]. destruct (negb _); [reflexivity|]. destruct (sl_seen s) eqn:Q; [reflexivity|]. cbv zeta. destruct (sl_packet s) as [[? ?]|]; [|reflexivity].
    destruct (_ <? _); [reflexivity|]. now destruct (sl_live s).
Qed.
Lemma last_error_fold f h : last_error f (rev h) = fold_left (fun e a => match a with Fail _ _ err => err | _ => e end) (filter f h) 0.
Proof.
  induction h as [|a h IH] using rev_ind; [reflexivity|]. rewrite rev_app_distr, filter_app, fold_left_app, <- IH. cbn [rev app last_error filter].
  destruct a as [t c d|t c|t c sz|t c err]; destruct (f _); reflexivity.
Qed.
Theorem C47_error : forall mt h t c,
  error_of mt h t c = last_error (if mt then fun a => thread_of a =? t else fun a => conn_of a =? c) (rev h).
Proof.
  intros mt h t c. unfold error_of. rewrite after_slot, err_fold, last_error_fold. f_equal. apply filter_same. intros a. destruct mt; [now rewrite who_thread|now rewrite who_conn].
Qed.
Print Assumptions C47_error.

(** ** Refuted: the multithreaded build keeps connections apart *)
(** A call on connection 1 brings a datagram that wolfSSL does not read (its TLS
    session has failed); inside its callback the thread works on connection 2,
    whose wolfSSL then reads connection 1's datagram. *)
Theorem C47_mixed_refuted : exists h, answered true h 7 2 1500 = Value 3 [1; 2; 3] /\ h = [Accept 7 1 [1; 2; 3]] /\ ~ passed 2 [1; 2; 3] h.
Proof. exists [Accept 7 1 [1; 2; 3]]. split; [vm_compute; reflexivity|]. split; [reflexivity|]. intros (t & [X|[]]). discriminate X. Qed.
Print Assumptions C47_mixed_refuted.
(** The same with two calls one after the other (the second one is, say, a connect):
    wolfSSL reads through the pointer of a call that is over. *)
Theorem C47_stale_refuted : exists calls h, interleaved calls (h ++ [Read 7 2 1500]) /\ answered true h 7 2 1500 = Stale.
Proof.
  exists (fun t => if t =? 7 then [ACall 1 (Some [1; 2; 3]) []; ACall 2 None [DoRead 1500]] else []), [Accept 7 1 [1; 2; 3]; Return 7 1]. split; [|vm_compute; reflexivity].
  intros t. cbn [app filter thread_of]. rewrite !(Z.eqb_sym 7 t). destruct (t =? 7) eqn:Q; [|exists []; reflexivity]. apply Z.eqb_eq in Q. subst t. exists []. reflexivity.
Qed.
Print Assumptions C47_stale_refuted.
(** The error shown for connection 1 is that of connection 2; on another thread it is 0. *)
Theorem C47_error_mixed_refuted : exists h, h = [Fail 7 1 (-308); Fail 7 2 (-313)] /\ error_of true h 7 1 = -313 /\ error_of true h 8 1 = 0 /\ error_of false h 7 1 = -308 /\ error_of false h 8 1 = -308.
Proof. exists [Fail 7 1 (-308); Fail 7 2 (-313)]. repeat split; vm_compute; reflexivity. Qed.
Print Assumptions C47_error_mixed_refuted.

(** ** Examples *)
(** Two threads, three connections, interleaved; every datagram is read in its call. *)
Definition ex_calls (t : Z) : list a_call :=
  if t =? 7 then [ACall 1 (Some [1; 2; 3]) [DoRead 1500; DoRead 1500]; ACall 2 (Some [4]) [DoFail (-308); DoRead 1500]]
  else if t =? 8 then [ACall 3 None [DoRead 1500]; ACall 3 (Some [5; 6]) [DoRead 1; DoRead 1500]] else [].
Definition ex_h : list action := [Accept 7 1 [1; 2; 3]; Read 8 3 1500; Accept 8 3 [5; 6]; Read 7 1 1500; Read 7 1 1500; Return 7 1; Accept 7 2 [4]; Read 8 3 1; Fail 7 2 (-308)].
Example C47_example :
  (forall t, Forall prompt (ex_calls t)) /\ interleaved ex_calls (ex_h ++ [Read 7 2 1500]) /\
  answered true ex_h 7 2 1500 = Value 1 [4] /\ current 7 (rev ex_h) = Some (2, [4]) /\ error_of true ex_h 7 2 = -308.
Proof.
  split; [|split; [|repeat split; vm_compute; reflexivity]].
  - intros t. unfold ex_calls. destruct (t =? 7); [|destruct (t =? 8)]; repeat apply Forall_cons; try apply Forall_nil; try (left; reflexivity); right; exists 1500; cbn; (split; [tauto|lia]).
  - intros t. unfold ex_calls, ex_h. cbn [app filter thread_of]. rewrite !(Z.eqb_sym 7 t), !(Z.eqb_sym 8 t).
    destruct (t =? 7) eqn:Q.
    + apply Z.eqb_eq in Q. subst t. exists [Return 7 2]. reflexivity.
    + destruct (t =? 8) eqn:Q8; [|exists []; reflexivity]. apply Z.eqb_eq in Q8. subst t. exists [Read 8 3 1500; Return 8 3]. reflexivity.
Qed.
Example C47_example_once : answered true [Accept 7 1 [1; 2; 3]] 7 1 1500 = Value 3 [1; 2; 3] /\ answered true [Accept 7 1 [1; 2; 3]; Read 7 1 1500; Fail 7 1 5; Accept 8 1 [4]] 7 1 1500 = Value WOLFSSL_CBIO_ERR_WANT_READ [].
Proof. split; vm_compute; reflexivity. Qed.
