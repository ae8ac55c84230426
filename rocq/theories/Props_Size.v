(** C24 (padding) and C31 (outside MTU).  Vocabulary: [CallSpec.v]. *)
From Verif Require Import Base Codes Ctx FragSpec MssSpec Frag Wire WireSpec WireProofs ConnState Conn ConnSpec CallSpec MsgSpec
  Scenario SeqInside SeqMtu SeqApi Props_Data.
Unset Strict Implicit.

Lemma uncut_message E w p rc w' :
  reached E w -> c_in_chain (w_c w) = [] -> bytes_ok p -> call E (OInside p) w rc w' ->
  refusal (w_c w) p = None -> must_cut (w_c w) p = false ->
  exists p', len p' = len p /\
    during sent w w' [data_message (e_le E) (c_vmaj (w_c w)) (c_vmin (w_c w)) p' (padded_size (c_padding (w_c w)) (len p) - len p)].
Proof.
  intros R Ch B C Rf Cut. pose proof (inside_call R Ch B C) as H. rewrite Rf, Cut in H.
  destruct H as (p' & l & MC & _ & _ & _ & D & W). exists p'. split; [apply MC|].
  destruct l as [|[[m r] e] l]; [destruct W|]. destruct W as [-> W].
  destruct (write_code r e =? HE_SUCCESS); [destruct l; [|destruct W]|destruct W as [-> _]]; exact D.
Qed.
Lemma data_message_len le a b p n : 0 <= n -> len (data_message le a b p n) = 3 + len p + n.
Proof.
  intros Hn. unfold data_message. rewrite len_cons, !len_app, len_zeros by lia.
  assert (len (data_length_field le a b (len p)) = 2) as ->; [|lia]. unfold data_length_field. destruct (_ && _); [rewrite len_bytes16|rewrite len_be16]; lia.
Qed.
Lemma padded_ge t n : 0 <= n -> n <= padded_size t n.
Proof. intros Hn. unfold padded_size. repeat match goal with |- context [if ?b then _ else _] => destruct b eqn:? end; repeat match goal with H : (_ <=? _) = true |- _ => apply Z.leb_le in H | H : (_ <=? _) = false |- _ => apply Z.leb_gt in H end; lia. Qed.

(** ** C24: a packet that is accepted and not cut is written as one message: a
    header of 3 bytes, the packet (MSS clamped), zeros up to the padded size. *)
Theorem C24_message_size : forall E w p rc w',
  reached E w -> c_in_chain (w_c w) = [] -> bytes_ok p -> call E (OInside p) w rc w' ->
  refusal (w_c w) p = None -> must_cut (w_c w) p = false ->
  exists m, during sent w w' [m] /\
    len m = 3 + padded_size (c_padding (w_c w)) (len p) /\ len p <= len m - 3 /\
    exists header p', len header = 3 /\ len p' = len p /\ m = header ++ p' ++ zeros (len m - 3 - len p).
Proof.
  intros E w p rc w' R Ch B C Rf Cut. destruct (uncut_message R Ch B C Rf Cut) as (p' & Lp & D).
  pose proof (len_nonneg p) as L0. pose proof (@padded_ge (c_padding (w_c w)) _ L0) as Pg.
  set (n := padded_size (c_padding (w_c w)) (len p)) in *.
  match type of D with during _ _ _ [?x] => set (m := x) in * end.
  assert (len m = 3 + n) as Lm by (unfold m; rewrite data_message_len by lia; lia).
  exists m. split; [exact D|]. split; [exact Lm|]. split; [lia|].
  exists (HE_MSGID_DATA :: data_length_field (e_le E) (c_vmaj (w_c w)) (c_vmin (w_c w)) (len p')), p'.
  split; [rewrite len_cons; unfold data_length_field; destruct (_ && _); [rewrite len_bytes16|rewrite len_be16]; lia|].
  split; [exact Lp|]. rewrite Lm. replace (3 + n - 3 - len p) with (n - len p) by lia. unfold m, data_message.
  cbn [app]. f_equal. 
Qed.
Print Assumptions C24_message_size.

(** FULL: all packets up to 1350 bytes give messages of the same size. *)
Theorem C24_full : forall E w p rc w',
  reached E w -> c_in_chain (w_c w) = [] -> bytes_ok p -> call E (OInside p) w rc w' ->
  refusal (w_c w) p = None -> must_cut (w_c w) p = false -> c_padding (w_c w) = HE_PADDING_FULL -> len p <= 1350 ->
  exists m, during sent w w' [m] /\ len m = 1353.
Proof.
  intros E w p rc w' R Ch B C Rf Cut Pd L. destruct (C24_message_size R Ch B C Rf Cut) as (m & D & Lm & _).
  exists m. split; [exact D|]. rewrite Lm, Pd. unfold padded_size. destruct (Z.leb_spec 1350 (len p)); [lia|reflexivity].
Qed.
Print Assumptions C24_full.
(** 450: one of three sizes, the smallest that holds the packet. *)
Theorem C24_450 : forall E w p rc w',
  reached E w -> c_in_chain (w_c w) = [] -> bytes_ok p -> call E (OInside p) w rc w' ->
  refusal (w_c w) p = None -> must_cut (w_c w) p = false -> c_padding (w_c w) = HE_PADDING_450 -> len p <= 1350 ->
  exists m k, during sent w w' [m] /\ len m = 3 + 450 * k /\ 1 <= k <= 3 /\ 450 * (k - 1) < len p <= 450 * k.
Proof.
  intros E w p rc w' R Ch B C Rf Cut Pd L. destruct (C24_message_size R Ch B C Rf Cut) as (m & D & Lm & _).
  assert (20 <= len p) as L20.
  { unfold refusal in Rf. destruct (negb _); [discriminate Rf|]. destruct (Z.ltb_spec (len p) 20); [discriminate Rf|lia]. }
  exists m. rewrite Pd in Lm. unfold padded_size in Lm. change (HE_PADDING_450 =? HE_PADDING_NONE) with false in Lm. change (HE_PADDING_450 =? HE_PADDING_FULL) with false in Lm. cbv iota in Lm.
  destruct (Z.leb_spec 1350 (len p)); [exists 3; repeat split; auto; lia|].
  destruct (Z.leb_spec (len p) 450); [exists 1; repeat split; auto; lia|].
  destruct (Z.leb_spec (len p) 900); [exists 2; repeat split; auto; lia|exists 3; repeat split; auto; lia].
Qed.
Print Assumptions C24_450.
(** NONE: no padding. *)
Theorem C24_none : forall E w p rc w',
  reached E w -> c_in_chain (w_c w) = [] -> bytes_ok p -> call E (OInside p) w rc w' ->
  refusal (w_c w) p = None -> must_cut (w_c w) p = false -> c_padding (w_c w) = HE_PADDING_NONE ->
  exists m, during sent w w' [m] /\ len m = 3 + len p.
Proof.
  intros E w p rc w' R Ch B C Rf Cut Pd. destruct (C24_message_size R Ch B C Rf Cut) as (m & D & Lm & _).
  exists m. split; [exact D|]. rewrite Lm, Pd. unfold padded_size. destruct (1350 <=? len p); reflexivity.
Qed.
Print Assumptions C24_none.

(** ** C31 *)
(** What he_conn_set_outside_mtu (of a uint16_t) does, exactly; in any state, even
    during other calls (whatever [h] the host does). *)
Theorem C31_set_mtu : forall E h mtu w, 0 <= mtu < 65536 ->
  api_body E h (OSetMtu mtu) w =
    if mtu <=? 114 then Done HE_ERR_INVALID_MTU_SIZE w else Done HE_SUCCESS (World (set_mtu mtu (w_c w)) (w_t w)).
Proof.
  intros E h mtu w H. cbn [api_body]. unfold set_outside_mtu. unfold u16. rewrite Z.mod_small by lia. change HE_PACKET_OVERHEAD with 114.
  destruct (mtu <=? 114); reflexivity.
Qed.
Print Assumptions C31_set_mtu.
(** A connection that is ONLINE has an MTU that leaves room for data; however it
    got there. *)
Theorem C31_online : forall E n ops w,
  run E n ops world_new = Done tt w -> c_state (w_c w) = HE_STATE_ONLINE -> 115 <= c_mtu (w_c w) <= 65535.
Proof. intros E n ops w. apply run_mtu_online. Qed.
Print Assumptions C31_online.
(** A packet is accepted only if it and the overhead fit in the MTU; one that is
    too large is refused with PACKET_TOO_LARGE and nothing is sent. *)
Theorem C31_fits : forall E w p rc w',
  reached E w -> c_in_chain (w_c w) = [] -> bytes_ok p -> call E (OInside p) w rc w' ->
  (rc = HE_SUCCESS \/ ~ during sent w w' [] -> 20 <= len p /\ len p + 114 <= c_mtu (w_c w)) /\
  (c_state (w_c w) = HE_STATE_ONLINE -> 20 <= len p -> c_mtu (w_c w) < len p + 114 ->
     rc = HE_ERR_PACKET_TOO_LARGE /\ during sent w w' []).
Proof.
  intros E w p rc w' R Ch B C. pose proof (inside_call R Ch B C) as H. split.
  - intros Hr. destruct (refusal (w_c w) p) as [code|] eqn:Rf.
    + exfalso. destruct H as (H & D & _). destruct Hr as [Hr|Hr]; [|now apply Hr]. rewrite Hr in H. rewrite <- H in Rf.
      unfold refusal in Rf. repeat match type of Rf with (if ?b then _ else _) = _ => destruct b; try discriminate Rf end.
    + unfold refusal in Rf. destruct (negb _); [discriminate Rf|]. destruct (Z.ltb_spec (len p) 20); [discriminate Rf|].
      destruct (Z.ltb_spec (c_mtu (w_c w) - 114) (len p)); [discriminate Rf|]. lia.
  - intros On L20 Lm. unfold refusal in H. rewrite On in H. change (HE_STATE_ONLINE =? HE_STATE_ONLINE) with true in H. cbn [negb] in H.
    destruct (Z.ltb_spec (len p) 20); [lia|]. destruct (Z.ltb_spec (c_mtu (w_c w) - 114) (len p)); [|lia]. tauto.
Qed.
Print Assumptions C31_fits.

(** ** Findings *)
Definition with_padding (t : Z) (x : ctx) : ctx :=
  Ctx (x_dn x) (x_chacha x) (x_ca x) (x_cert_key x) (x_type x) (x_cbs x) (x_no_roaming x) t (x_aggressive x)
      (x_pqc x) (x_wolf x) (x_io x) (x_min_major x) (x_min_minor x) (x_max_major x) (x_max_minor x) (x_max_frag x).
(** A client with this MTU and padding, ONLINE. *)
Definition client_with (mtu padding : Z) : list op :=
  [OSetUsername user; OSetPassword pass; OSetMtu mtu; OClientConnect (with_padding padding dctx) [] []; OOutside (dgram 0 []);
   OOutside (dgram 0 (config_message true (ip 1) (ip 2) (ip 3) 4660))].
Definition pong (id : Z) : op := OOutside (dgram 4660 (pong_message id)).
(** PMTU discovery that ends at 1250: the peer answers the probe of 1250 bytes,
    larger ones get lost. *)
Definition search_1250 : list op := [OStartPmtud; pong 1] ++ repeat OPmtudTimeout 6.

(** Padding does not look at the path MTU: with FULL a message larger than the
    path MTU (plus data header) is sent although the packet itself is small. *)
Theorem C24_path_mtu_refuted : exists ops,
  let w := world_at ops in
  reached plain_env w /\ c_in_chain (w_c w) = [] /\ bytes_ok ipv4 /\ path_mtu (w_c w) = 1250 /\
  exists w' m, call plain_env (OInside ipv4) w HE_SUCCESS w' /\ during sent w w' [m] /\ len m = 1353 /\
    path_mtu (w_c w) + 3 < len m.
Proof.
  exists (client_with 1500 HE_PADDING_FULL ++ search_1250). cbv zeta.
  split; [apply world_at_reached; vm_compute; reflexivity|]. split; [vm_compute; reflexivity|].
  split; [apply bytes_ok_dec; vm_compute; reflexivity|]. split; [vm_compute; reflexivity|].
  exists (world_at (client_with 1500 HE_PADDING_FULL ++ search_1250 ++ [OInside ipv4])), (data_message true 1 2 ipv4 (1350 - len ipv4)).
  conj; vm_compute; reflexivity.
Qed.
Print Assumptions C24_path_mtu_refuted.
(** ... nor at the outside MTU: with an MTU of 200 a message of 1353 bytes is
    sent. *)
Theorem C31_padding_refuted : exists ops,
  let w := world_at ops in
  reached plain_env w /\ c_in_chain (w_c w) = [] /\ c_mtu (w_c w) = 200 /\
  exists w' m, call plain_env (OInside ipv4) w HE_SUCCESS w' /\ during sent w w' [m] /\ len m = 1353.
Proof.
  exists (client_with 200 HE_PADDING_FULL). cbv zeta.
  split; [apply world_at_reached; vm_compute; reflexivity|]. split; [vm_compute; reflexivity|]. split; [vm_compute; reflexivity|].
  exists (world_at (client_with 200 HE_PADDING_FULL ++ [OInside ipv4])), (data_message true 1 2 ipv4 (1350 - len ipv4)).
  conj; vm_compute; reflexivity.
Qed.
Print Assumptions C31_padding_refuted.
(** With an MTU of 2000 a packet of 1600 bytes is accepted and written as two
    fragments, the second of which every receiver rejects. *)
Definition too_long : bytes := 69 :: zeros 1599.
Theorem C31_large_mtu_refuted : exists ops,
  let w := world_at ops in
  reached plain_env w /\ c_in_chain (w_c w) = [] /\ bytes_ok too_long /\
  exists w' m1 m2, call plain_env (OInside too_long) w HE_SUCCESS w' /\ during sent w w' [m1; m2] /\ frag_in m2 = None.
Proof.
  exists (client_with 2000 HE_PADDING_NONE). cbv zeta.
  split; [apply world_at_reached; vm_compute; reflexivity|]. split; [vm_compute; reflexivity|].
  split; [apply bytes_ok_dec; vm_compute; reflexivity|].
  exists (world_at (client_with 2000 HE_PADDING_NONE ++ [OInside too_long])).
  exists (fragment_message 0 0 true (firstn 1344 too_long)), (fragment_message 0 1344 false (skipn 1344 too_long)).
  conj; vm_compute; reflexivity.
Qed.
Print Assumptions C31_large_mtu_refuted.
(** The hypotheses of the C24 theorems are met. *)
Example C24_example :
  let full := world_at (client_with 1500 HE_PADDING_FULL) in let p450 := world_at (client_with 1500 HE_PADDING_450) in
  reached plain_env full /\ reached plain_env p450 /\ c_padding (w_c full) = HE_PADDING_FULL /\ c_padding (w_c p450) = HE_PADDING_450 /\
  c_in_chain (w_c full) = [] /\ refusal (w_c full) ipv4 = None /\ must_cut (w_c full) ipv4 = false /\
  c_in_chain (w_c p450) = [] /\ refusal (w_c p450) ipv4 = None /\ must_cut (w_c p450) ipv4 = false.
Proof. cbv zeta. split; [apply world_at_reached; vm_compute; reflexivity|]. split; [apply world_at_reached; vm_compute; reflexivity|]. conj; vm_compute; reflexivity. Qed.
