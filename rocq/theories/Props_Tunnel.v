(** C45: a tunnel never corrupts: packets that come out went in. *)
From Verif Require Import Base Codes Ctx Config Mss MssSpec Frag FragSpec ReasmTable Wire WireSpec ConnState Conn ConnSpec CallSpec MsgSpec ConnSteps
  Frame Reaction Seq SeqInside SeqOutside SeqReasm SeqApi Scenario Honest TunnelSpec TunnelProofs Props_Data.
Unset Strict Implicit.

(** Every packet that comes out of the receiver is one that went into the sender,
    whatever the network lost, repeated and reordered, if the packets that were cut
    in fragments have different places in the receiver's table. *)
Theorem C45_integrity : forall Es s ops s' sentl Er r rops r' qs n,
  tunnel Es s ops s' sentl Er r rops r' qs n ->
  NoDup (map (fun id => id mod n) (cut_ids sentl)) ->
  forall q, In q qs -> entered Es s ops q.
Proof.
  intros Es s ops s' sentl Er r rops r' qs n Tn ND q Hq. destruct Tn as [Rs Fo Rn Sn Rr Fr Rrn Qs [Pl Plr] Cb Ve Or Pe Tl].
  destruct (sender_run Rs Pl Fo Rn) as (l & cuts & D & Fc & Fk & Ic & Is & _).
  pose proof (during_unique Sn D) as ->. clear D.
  assert (Forall (fun o => still_op o = true) rops) as Fst by (eapply Forall_impl; [|exact Fr]; intros []; cbn; tauto).
  destruct (still_run Plr Cb Fst Rrn) as (ds & qa & Da & _ & Tk & _). destruct (act_split Da) as [Dg Di].
  pose proof (during_unique Qs Di) as ->. injection Ve as V1 V2. rewrite V1, V2 in Tk.
  destruct Pe as (t & Ht & Nt & Free). rewrite Ht in Tk.
  assert (1 <= n <= 65536) as Hn by (rewrite <- Nt; apply (ok_tbl (reached_cok Rr) Ht)).
  rewrite Ic, map_map in ND. rewrite Forall_forall in Fc, Fk.
  destruct (@took_honest (e_le Er) (e_le Es) (c_vmaj (w_c s)) (c_vmin (w_c s))) with (n := n) (orig := entered Es s ops) (cuts := cuts) (A := qa)
    (tb := Some t) (ds := ds) (tb' := c_frag_tbl (w_c r')) (t := t) as [_ Fin]; auto.
  - destruct Or as [Or|Or]; [now left|]. right. destruct (Z.eq_dec (c_vmaj (w_c s)) 1) as [Q|Q]; [|now left]. right. intros Q2. apply Or. congruence.
  - clear - ND. intros c c' I1 I2 E. revert ND I1 I2. induction cuts as [|x cuts IH]; cbn [map]; [intros _ []|]. intros ND. inversion_clear ND as [|? ? N1 N2].
    intros [->|I1] [->|I2]; [reflexivity| | |auto].
    + destruct N1. apply in_map_iff. exists c'. auto.
    + destruct N1. apply in_map_iff. exists c. auto.
  - split; [exact Nt|]. intros i e G. rewrite Free in G. discriminate G.
  - apply Forall_forall. intros d Hd. apply Fc. apply (Tl _ (fst d) Dg). now apply in_map.
  - rewrite Forall_forall in Fin. now apply Fin.
Qed.
Print Assumptions C45_integrity.

(** The ids of the packets that were cut follow each other, so a receiver whose
    number of places divides 65536 (the default is 65536) has room for that many. *)
Theorem C45_default : forall Es s ops s' sentl Er r rops r' qs n,
  tunnel Es s ops s' sentl Er r rops r' qs n ->
  (n | 65536) -> Z.of_nat (length (cut_ids sentl)) <= n ->
  forall q, In q qs -> entered Es s ops q.
Proof.
  intros Es s ops s' sentl Er r rops r' qs n Tn Dv Hl. apply (C45_integrity Tn).
  destruct Tn as [Rs Fo Rn Sn Rr _ _ _ [Pl _] _ _ _ Pe _].
  destruct (sender_run Rs Pl Fo Rn) as (l & cuts & D & _ & _ & Ic & Is & _). pose proof (during_unique Sn D) as ->. rewrite Ic, Is in *.
  destruct Pe as (t & Ht & Nt & _). assert (1 <= n <= 65536) as Hn by (rewrite <- Nt; apply (ok_tbl (reached_cok Rr) Ht)).
  assert (forall k id, length (ids_from id k) = k) as Li by (induction k; intros; cbn; auto). rewrite Li in Hl. clear - Dv Hl Hn.
  assert (forall x j, (u16 (x + 1) + j) mod n = (x + (j + 1)) mod n) as Un.
  { intros x j. rewrite <- Zplus_mod_idemp_l. unfold u16. rewrite <- (Znumtheory.Zmod_div_mod n 65536) by (assumption || lia). rewrite Zplus_mod_idemp_l. f_equal. lia. }
  assert (forall k id x, In x (map (fun i => i mod n) (ids_from id k)) -> exists j, 0 <= j < Z.of_nat k /\ x = (id + j) mod n) as Mem.
  { induction k as [|k IH]; intros id x; cbn [ids_from map]; [intros []|]. intros [<-|H].
    - exists 0. rewrite Z.add_0_r. split; [lia|reflexivity].
    - destruct (IH _ _ H) as (j & Hj & ->). exists (j + 1). split; [lia|]. apply Un. }
  generalize dependent (length cuts). generalize (c_frag_next (w_c s)) as id. intros id k. revert id. induction k as [|k IH]; intros id Hk; cbn [ids_from map]; [constructor|].
  constructor; [|apply IH; lia]. intros H. destruct (Mem _ _ _ H) as (j & Hj & E).
  assert ((id + (j + 1)) mod n = id mod n) as E' by now rewrite E, Un.
  pose proof (Z.div_mod (id + (j + 1)) n). pose proof (Z.div_mod id n). 
  assert (n * ((id + (j + 1)) / n - id / n) = j + 1) as M by lia. assert (0 < (id + (j + 1)) / n - id / n < 2) as B by nia.
  assert ((id + (j + 1)) / n - id / n = 1) as B1 by lia. rewrite B1 in M. lia.
Qed.
Print Assumptions C45_default.

(** Right after a connect call nothing is pending. *)
Theorem C45_connected : forall E o w w', call E o w HE_SUCCESS w' ->
  match o with OClientConnect _ _ _ | OServerConnect _ _ _ => True | _ => False end ->
  exists n, nothing_pending (w_c w') n.
Proof. intros E o w w' C Ho. destruct (connect_all_free C Ho) as (t & Ht & F). exists (t_num t), t. auto. Qed.
Print Assumptions C45_connected.

(** ** The hypotheses are met *)
(** A client sends a large packet, cut in two, and a small one.  The server gets the
    small one twice, then the second fragment, the first one, and the second one
    again: it delivers the small one twice, and the large one. *)
Definition tunnel_ops : list op := [OInside large; OInside ipv4].
Definition tunnel_sent : list bytes := fragments 0 0 pieces ++ [data_message true 1 2 ipv4 0].
Definition tunnel_got : list bytes := map (fun i => nth i tunnel_sent []) [2; 2; 1; 0; 1]%nat.
Definition tunnel_rops : list op := map (fun m => OOutside (dgram 4660 m)) tunnel_got ++ [OKeepalive].
Lemma tunnel_example : tunnel plain_env (world_at client_up) tunnel_ops (world_of (run plain_env 0 tunnel_ops (world_at client_up))) tunnel_sent
  plain_env (world_at server_up) tunnel_rops (world_of (run plain_env 0 tunnel_rops (world_at server_up))) [ipv4; ipv4; large] 10.
Proof.
  constructor.
  - apply world_at_reached; vm_compute; reflexivity.
  - constructor; [|constructor; [|constructor]]; apply bytes_ok_dec; vm_compute; reflexivity.
  - vm_compute; reflexivity.
  - vm_compute; reflexivity.
  - apply world_at_reached; vm_compute; reflexivity.
  - repeat constructor.
  - vm_compute; reflexivity.
  - vm_compute; reflexivity.
  - split; vm_compute; reflexivity.
  - vm_compute; reflexivity.
  - vm_compute; reflexivity.
  - now left.
  - eexists. split; [vm_compute; reflexivity|]. split; reflexivity.
  - intros got x D Hx. assert (during got_msg (world_at server_up) (world_of (run plain_env 0 tunnel_rops (world_at server_up))) (map (pair HE_STATE_ONLINE) tunnel_got)) as D' by (vm_compute; reflexivity).
    rewrite (during_unique D D') in Hx. apply in_map_iff in Hx as (m & <- & Hm). cbn [snd]. unfold tunnel_got in Hm. apply in_map_iff in Hm as (i & <- & Hi).
    apply nth_In. change (length tunnel_sent) with 3%nat. cbn in Hi. lia.
Qed.
Example C45_example : NoDup (map (fun id => id mod 10) (cut_ids tunnel_sent)) /\
  entered plain_env (world_at client_up) tunnel_ops large /\ entered plain_env (world_at client_up) tunnel_ops ipv4.
Proof.
  assert (NoDup (map (fun id => id mod 10) (cut_ids tunnel_sent))) as N.
  { replace (cut_ids tunnel_sent) with [0] by (vm_compute; reflexivity). repeat constructor. intros []. }
  split; [exact N|]. pose proof (C45_integrity tunnel_example N) as H. split; apply H; cbn; auto.
Qed.

(** ** Too few places *)
(** Without the condition on the places it fails: two packets are cut; a receiver with one
    place gets the first fragment of one and the last fragment of the other, and
    delivers a packet that is neither. *)
Definition large2 : bytes := 69 :: 1 :: zeros 1377 ++ [9].
Definition pieces2 : list bytes := [firstn 1344 large2; skipn 1344 large2].
Definition mixed : bytes := firstn 1344 large ++ skipn 1344 large2.
Definition small_ctx : ctx :=
  Ctx (zeros 51) false true true HE_CONNECTION_TYPE_DATAGRAM all_cbs false HE_PADDING_NONE false false true HE_CONNECTION_TYPE_DATAGRAM 1 0 1 2 1.
Definition small_up : list op :=
  [OSetMtu 1500; OServerConnect small_ctx [] []; OOutside (dgram 0 []); OOutside (dgram 0 (userpass_message user pass))].
Definition mix_ops : list op := [OInside large; OInside large2].
Definition mix_sent : list bytes := fragments 0 0 pieces ++ fragments 1 0 pieces2.
Definition mix_got : list bytes := map (fun i => nth i mix_sent []) [0; 3]%nat.
Definition mix_rops : list op := map (fun m => OOutside (dgram 4660 m)) mix_got.
Lemma mix_tunnel : tunnel plain_env (world_at client_up) mix_ops (world_of (run plain_env 0 mix_ops (world_at client_up))) mix_sent
  plain_env (world_at small_up) mix_rops (world_of (run plain_env 0 mix_rops (world_at small_up))) [mixed] 1.
Proof.
  constructor.
  - apply world_at_reached; vm_compute; reflexivity.
  - constructor; [|constructor; [|constructor]]; apply bytes_ok_dec; vm_compute; reflexivity.
  - vm_compute; reflexivity.
  - vm_compute; reflexivity.
  - apply world_at_reached; vm_compute; reflexivity.
  - repeat constructor.
  - vm_compute; reflexivity.
  - vm_compute; reflexivity.
  - split; vm_compute; reflexivity.
  - vm_compute; reflexivity.
  - vm_compute; reflexivity.
  - now left.
  - eexists. split; [vm_compute; reflexivity|]. split; reflexivity.
  - intros got x D Hx. assert (during got_msg (world_at small_up) (world_of (run plain_env 0 mix_rops (world_at small_up))) (map (pair HE_STATE_ONLINE) mix_got)) as D' by (vm_compute; reflexivity).
    rewrite (during_unique D D') in Hx. apply in_map_iff in Hx as (m & <- & Hm). cbn [snd]. unfold mix_got in Hm. apply in_map_iff in Hm as (i & <- & Hi).
    apply nth_In. change (length mix_sent) with 4%nat. cbn in Hi. lia.
Qed.
Theorem C45_few_places_refuted : exists Es s ops s' sentl Er r rops r' qs n q,
  tunnel Es s ops s' sentl Er r rops r' qs n /\ In q qs /\ ~ entered Es s ops q.
Proof.
  eexists _, _, _, _, _, _, _, _, _, _, _, mixed. split; [exact mix_tunnel|]. split; [now left|].
  assert (forall mss p, ip_proto p <> 6 -> mss_clamped mss p mixed -> mixed = p) as NT.
  { intros mss p Np (_ & H & _). apply H. intros v (_ & _ & Q & _). contradiction. }
  intros (ops1 & p & ops2 & s1 & Q & _ & _ & M). destruct ops1 as [|o1 [|o2 ops1]].
  - injection Q as Q _. subst p. apply NT in M; [|vm_compute; discriminate]. vm_compute in M. discriminate M.
  - injection Q as _ Q _. subst p. apply NT in M; [|vm_compute; discriminate]. vm_compute in M. discriminate M.
  - injection Q as _ _ Q. now destruct ops1.
Qed.
Print Assumptions C45_few_places_refuted.
