(** The builders of [Wire.v] produce the formats of [WireSpec.v]. *)
From Verif Require Import Base Codes Wire WireSpec Frag FragProofs.
Unset Strict Implicit.

Lemma stn_zeros a n off src :
  len a <= off -> off + len src <= len a + n ->
  stn (a ++ zeros n) off src =
  Val (a ++ zeros (off - len a) ++ src ++ zeros (n - (off - len a) - len src)).
Proof.
  intros H1 H2. pose proof (len_nonneg a). pose proof (len_nonneg src).
  rewrite (zeros_split (k := off - len a) (n := n)) by lia.
  rewrite (zeros_split (k := len src) (n := n - (off - len a))) by lia.
  rewrite !app_assoc.
  rewrite <- (app_assoc (a ++ zeros (off - len a))).
  rewrite stn_mid; [now rewrite <- !app_assoc|rewrite len_app, len_zeros; lia|rewrite len_zeros; lia].
Qed.
Lemma stn_tail a n off src :
  off = len a -> len src <= n ->
  stn (a ++ zeros n) off src = Val ((a ++ src) ++ zeros (n - len src)).
Proof.
  intros H1 H2. rewrite stn_zeros by lia. rewrite H1, Z.sub_diag, zeros_0.
  cbn [app]. rewrite Z.sub_0_r, <- app_assoc. reflexivity.
Qed.
Lemma stn_start n src :
  len src <= n -> stn (zeros n) 0 src = Val (src ++ zeros (n - len src)).
Proof. intros H. apply (stn_tail (a := [])); auto. Qed.
Lemma u8_small v : 0 <= v < 256 -> u8 v = v.
Proof. apply Z.mod_small. Qed.
Lemma len_be16 v : len (be16 v) = 2.
Proof. reflexivity. Qed.
Lemma len_padded n s : len s <= n -> len (padded n s) = n.
Proof. intros. unfold padded. rewrite len_app, len_zeros; lia. Qed.
Lemma slice_prefix a b n : n = len a -> slice (a ++ b) 0 n = a.
Proof. apply slice_app_l. Qed.
Lemma be16_bytes16 le v : 0 <= v < 65536 -> bytes16 le (htons le v) = be16 v.
Proof. apply bytes16_htons. Qed.

Ltac lens :=
  repeat first [rewrite len_app | rewrite len_cons | rewrite len_nil | rewrite len_bytes16
               | rewrite len_be16 | rewrite len_bytes64 | rewrite len_zeros by lia
               | rewrite len_padded by lia ]; try lia.

Lemma write_packet_header_ok le ma mi ag nr s pe n :
  0 <= ma < 256 -> 0 <= mi < 256 -> 16 <= n ->
  write_packet_header le ma mi ag nr s pe (zeros n) =
  Val (wire_header le ma mi ag
         (if nr then HE_PACKET_SESSION_REJECT else if pe =? 0 then s else pe) ++ zeros (n - 16)).
Proof.
  intros Ha Hi Hn. unfold write_packet_header, st8, sth64.
  rewrite stn_start by (cbn; lia). cbn [rbind].
  rewrite stn_tail by (cbn; lia). cbn [rbind].
  rewrite stn_tail by (cbn; lia). cbn [rbind].
  rewrite stn_tail by (cbn; lia). cbn [rbind].
  rewrite (u8_small Ha), (u8_small Hi). change (u8 72) with 72. change (u8 101) with 101.
  set (v := if negb nr then _ else _).
  assert (v = if nr then HE_PACKET_SESSION_REJECT else if pe =? 0 then s else pe) as Ev.
  { unfold v. change HE_PACKET_SESSION_EMPTY with 0. destruct nr, (pe =? 0); reflexivity. }
  rewrite <- Ev. clearbody v. clear Ev. unfold wire_header. pose proof (len_bytes64 le v) as L8.
  destruct ag; [rewrite stn_tail by (cbn; lia)|]; cbn [rbind];
    rewrite stn_zeros by lens; f_equal; rewrite L8, <- !app_assoc; cbn [app]; repeat (f_equal; try lens).
  - change (zeros (8 - (1 + (1 + (1 + (1 + (1 + 0))))))) with [0; 0; 0]. cbn [app]. repeat (f_equal; try lens).
  - change (zeros (8 - (1 + (1 + (1 + (1 + 0)))))) with [0; 0; 0; 0]. cbn [app]. repeat (f_equal; try lens).
Qed.

Lemma build_ping_ok le total id n :
  5 <= total -> 0 <= id < 65536 -> 0 <= n < 65536 ->
  build_ping le total id n = Val (HE_MSGID_PING :: be16 id ++ be16 n ++ zeros (total - 5)).
Proof.
  intros. unfold build_ping, st8, sth16. rewrite !be16_bytes16 by auto.
  rewrite stn_start by lens. cbn [rbind]. rewrite stn_tail by lens. cbn [rbind].
  rewrite stn_tail by lens. rewrite <- !app_assoc. cbn [app]. change (u8 HE_MSGID_PING) with HE_MSGID_PING.
  repeat (f_equal; try lens).
Qed.

Lemma build_pong_ok le raw :
  build_pong le raw = Val (HE_MSGID_PONG :: bytes16 le raw ++ [0; 0]).
Proof.
  unfold build_pong, st8, sth16. change sizeof_pong with 5.
  rewrite stn_start by lens. cbn [rbind]. rewrite stn_tail by lens.
  rewrite len_bytes16. rewrite <- app_assoc. reflexivity.
Qed.

Lemma build_goodbye_ok : build_goodbye = Val goodbye_message.
Proof. reflexivity. Qed.
Lemma build_auth_response_ok : build_auth_response = Val auth_denied_message.
Proof. reflexivity. Qed.

Lemma build_server_config_ok le data :
  len data <= HE_MAX_MTU - sizeof_server_config ->
  build_server_config le data =
  Val (server_config_message data ++ zeros (HE_MAX_MTU - sizeof_server_config - len data)).
Proof.
  change HE_MAX_MTU with 1350. change sizeof_server_config with 3. intros H. pose proof (len_nonneg data).
  unfold build_server_config, st8, sth16. change HE_MAX_MTU with 1350. change sizeof_server_config with 3.
  rewrite be16_bytes16 by lia. rewrite stn_start by lens. cbn [rbind]. rewrite stn_tail by lens. cbn [rbind].
  rewrite stn_tail by lens. unfold server_config_message. rewrite <- !app_assoc. cbn [app].
  rewrite <- ?app_assoc. change (u8 HE_MSGID_SERVER_CONFIG) with HE_MSGID_SERVER_CONFIG.
  repeat (f_equal; try lens).
Qed.

Lemma build_auth_buffer_ok le size ty buf n :
  0 <= ty < 256 -> 0 <= n < 65536 -> n <= len buf -> n + 4 <= size ->
  build_auth_buffer le size ty buf n =
  Val (auth_buffer_message ty (slice buf 0 n) ++ zeros (size - 4 - n)).
Proof.
  intros. unfold build_auth_buffer, st8, sth16.
  rewrite be16_bytes16 by lia.
  rewrite stn_start by lens. cbn [rbind]. rewrite stn_tail by lens. cbn [rbind].
  rewrite stn_tail by lens. cbn [rbind]. rewrite ldn_ok by lia. cbn [rbind].
  assert (len (slice buf 0 n) = n) as L by (rewrite len_slice; lia).
  rewrite stn_tail by lens. unfold auth_buffer_message. rewrite L, <- !app_assoc. cbn [app].
  rewrite <- ?app_assoc. rewrite (@u8_small ty) by lia. change (u8 HE_MSGID_AUTH) with HE_MSGID_AUTH.
  repeat (f_equal; try lens).
Qed.

Lemma build_data_ok le ma mi p :
  len p + 3 <= HE_MAX_WIRE_MTU ->
  build_data le ma mi p = Val (data_message le ma mi p 0 ++ zeros (HE_MAX_WIRE_MTU - 3 - len p)).
Proof.
  change HE_MAX_WIRE_MTU with 1500. intros H. pose proof (len_nonneg p).
  unfold build_data, st8, sth16. change HE_MAX_WIRE_MTU with 1500. change sizeof_data with 3.
  assert (u16 (len p) = len p) as U by (apply Z.mod_small; lia). rewrite U.
  assert (bytes16 le (if (ma =? 1) && (mi =? 0) then len p else htons le (len p)) =
          data_length_field le ma mi (len p)) as B.
  { unfold data_length_field. destruct (_ && _); [reflexivity|]. apply be16_bytes16. lia. }
  assert (len (data_length_field le ma mi (len p)) = 2) as B2 by (rewrite <- B; apply len_bytes16).
  rewrite stn_start by lens. cbn [rbind]. rewrite B. rewrite stn_tail by lens. cbn [rbind].
  rewrite stn_tail by lens. unfold data_message. rewrite <- !app_assoc. cbn [app].
  rewrite zeros_0, app_nil_r, <- !app_assoc. change (u8 HE_MSGID_DATA) with HE_MSGID_DATA.
  repeat (f_equal; try lens).
Qed.

Lemma frag_off_field_ok o (b : bool) :
  0 <= o < 65536 -> frag_off_field o (if b then 1 else 0) = o / 8 + (if b then 8192 else 0).
Proof.
  intros H. assert (0 <= o / 8 < 8192) as R by (split; [apply Z.div_pos|apply Z.div_lt_upper_bound]; lia).
  unfold frag_off_field. destruct b; [change (1 * 8192) with 8192|change (0 * 8192) with 0].
  - replace (Z.lor (o / 8) 8192) with (o / 8 + 8192); [apply Z.mod_small; lia|].
    symmetry. rewrite <- Z.lxor_lor, <- Z.add_nocarry_lxor; auto;
    (change 8192 with (1 * 2 ^ 13); rewrite <- Z.shiftl_mul_pow2 by lia;
     apply Z.bits_inj'; intros i Hi; rewrite Z.land_spec, Z.bits_0, Z.shiftl_spec by lia;
     destruct (Z.ltb_spec i 13);
     [rewrite (Z.testbit_neg_r 1) by lia; apply andb_false_r|];
     rewrite (Z.bits_above_log2 (o / 8)); [reflexivity|lia|];
     destruct (Z.eq_dec (o / 8) 0) as [->|]; [cbn; lia|];
     apply Z.log2_lt_pow2; [lia|]; eapply Z.lt_le_trans; [apply R|];
     change 8192 with (2 ^ 13); apply Z.pow_le_mono_r; lia).
  - rewrite Z.lor_0_r, Z.add_0_r. apply Z.mod_small; lia.
Qed.

Lemma frag_msg_ok le packet id off length fsize :
  0 <= id < 65536 -> 0 <= off < 65536 -> 0 < length -> 0 <= fsize -> off + length <= len packet ->
  frag_len length fsize + 7 <= HE_MAX_WIRE_MTU ->
  frag_msg le packet id off length fsize =
  Val (fragment_message id off (fsize <? length) (slice packet off (frag_len length fsize)) ++
       zeros (HE_MAX_WIRE_MTU - 7 - frag_len length fsize)).
Proof.
  change HE_MAX_WIRE_MTU with 1500. intros Hi Ho Hl Hf Hp Hs.
  assert (0 <= frag_len length fsize <= length) as F.
  { unfold frag_len; destruct (fsize <? length) eqn:?; lia. }
  unfold frag_msg, st8, sth16. change HE_MAX_WIRE_MTU with 1500. change sizeof_data_frag with 7.
  unfold frag_mf. rewrite frag_off_field_ok by lia.
  assert (0 <= off / 8 < 8192) as R by (split; [apply Z.div_pos|apply Z.div_lt_upper_bound]; lia).
  rewrite !be16_bytes16 by (try destruct (fsize <? length); lia).
  rewrite stn_start by lens. cbn [rbind]. rewrite stn_tail by lens. cbn [rbind].
  rewrite stn_tail by lens. cbn [rbind]. rewrite stn_tail by lens. cbn [rbind].
  rewrite ldn_ok by lia. cbn [rbind].
  assert (len (slice packet off (frag_len length fsize)) = frag_len length fsize) as L
    by (rewrite len_slice; lia).
  rewrite stn_tail by lens. unfold fragment_message. rewrite L, <- !app_assoc. cbn [app].
  rewrite <- ?app_assoc. change (u8 HE_MSGID_DATA_WITH_FRAG) with HE_MSGID_DATA_WITH_FRAG.
  repeat (f_equal; try lens).
Qed.

(** Strings *)
Lemma cstr_prefix s : firstn (length (cstr s)) s = cstr s.
Proof. induction s as [|b s IH]; cbn [cstr]; auto. destruct (b =? 0); cbn; auto. now rewrite IH. Qed.
Lemma cstr_length s : (length (cstr s) <= length s)%nat.
Proof. rewrite <- cstr_prefix at 1. rewrite firstn_length. lia. Qed.
Lemma firstn_cstr s n : (n <= length (cstr s))%nat -> firstn n s = firstn n (cstr s).
Proof. intros H. rewrite <- (cstr_prefix s), firstn_firstn. f_equal. lia. Qed.
Lemma strnlen_slice s n :
  0 <= n <= len s ->
  exists k, strnlen s n = Val k /\ 0 <= k <= n /\ k = len (firstn (Z.to_nat n) (cstr s)) /\
            slice s 0 k = firstn (Z.to_nat n) (cstr s).
Proof.
  intros H. unfold strnlen. rewrite strnlen_nat_cstr by (right; unfold len in *; lia).
  eexists; split; [reflexivity|]. pose proof (len_nonneg (cstr s)).
  rewrite len_firstn. split; [lia|]. split; [lia|].
  unfold slice. cbn [skipn Z.to_nat].
  rewrite firstn_cstr by (unfold len; lia).
  destruct (Z.le_gt_cases n (len (cstr s))).
  - f_equal. lia.
  - rewrite !firstn_all2 by (unfold len in *; lia). reflexivity.
Qed.

Lemma build_auth_userpass_ok u p :
  len u = 51 -> len p = 51 ->
  build_auth_userpass u p = Val (userpass_message (firstn 50 (cstr u)) (firstn 50 (cstr p))).
Proof.
  intros Hu Hp. unfold build_auth_userpass, st8.
  change sizeof_auth with 104. change HE_CONFIG_TEXT_FIELD_LENGTH with 50.
  rewrite stn_start by lens. cbn [rbind]. rewrite stn_tail by lens. cbn [rbind].
  destruct (@strnlen_slice u 50 ltac:(lia)) as (ul & -> & Ru & Lu & Su). cbn [rbind].
  destruct (@strnlen_slice p 50 ltac:(lia)) as (pl & -> & Rp & Lp & Sp). cbn [rbind].
  rewrite stn_tail by lens. cbn [rbind]. rewrite stn_tail by lens. cbn [rbind].
  rewrite ldn_ok by lia. cbn [rbind]. rewrite Su. change (Z.to_nat 50) with 50%nat in *.
  rewrite stn_tail by (lens). cbn [rbind].
  rewrite ldn_ok by lia. cbn [rbind]. rewrite Sp.
  rewrite stn_zeros by lens. unfold userpass_message, padded. rewrite <- Lu, <- Lp.
  rewrite (@u8_small ul), (@u8_small pl) by lia. rewrite <- !app_assoc. cbn [app].
  change (u8 HE_MSGID_AUTH) with HE_MSGID_AUTH. change (u8 HE_AUTH_TYPE_USERPASS) with HE_AUTH_TYPE_USERPASS.
  repeat (f_equal; try lens).
Qed.

Lemma strncpy24 s : len s = 24 ->
  strncpy_nat s (Z.to_nat HE_MAX_IPV4_STRING_LENGTH) = Val (padded 24 (cstr s)).
Proof.
  intros L. pose proof (cstr_length s). change (Z.to_nat HE_MAX_IPV4_STRING_LENGTH) with 24%nat.
  rewrite strncpy_nat_cstr by (right; unfold len in *; lia).
  unfold padded, zeros. rewrite firstn_all2 by (unfold len in *; lia).
  do 3 f_equal. unfold len in *. lia.
Qed.
(** The NUL the code puts in the last byte. *)
Lemma nul23 s : len s = 24 ->
  stn (padded 24 (cstr s)) 23 [0] = Val (padded 24 (firstn 23 (cstr s))).
Proof.
  intros L. pose proof (cstr_length s). assert (len (cstr s) <= 24) by (unfold len in *; lia).
  destruct (Z.eq_dec (len (cstr s)) 24) as [E|E].
  - unfold padded. rewrite len_firstn. change (Z.of_nat 23) with 23. rewrite E.
    change (zeros (24 - 24)) with (@nil Z). change (zeros (24 - Z.min 23 24)) with [0]. rewrite app_nil_r.
    rewrite stn_ok by lens. f_equal. f_equal. rewrite skipn_all2; [reflexivity|].
    unfold len in *; cbn; lia.
  - rewrite firstn_all2 by (unfold len in *; lia). unfold padded at 1.
    rewrite stn_zeros by lens. f_equal. unfold padded. f_equal.
    rewrite (zeros_split (k := 23 - len (cstr s)) (n := 24 - len (cstr s))) by lia. f_equal.
    replace (24 - len (cstr s) - (23 - len (cstr s))) with 1 by lia.
    change (len [0]) with 1. reflexivity.
Qed.

Lemma Val_inj A (a b : A) : Val a = Val b -> a = b.
Proof. congruence. Qed.
Lemma put_ipstr_ok a c s :
  len s = 24 ->
  put_ipstr (a ++ zeros 24 ++ c) (len a) s = Val (a ++ padded 24 (firstn 23 (cstr s)) ++ c).
Proof.
  intros L. unfold put_ipstr. rewrite strncpy24 by auto. cbn [rbind].
  pose proof (cstr_length s). assert (len (cstr s) <= 24) by (unfold len in *; lia).
  rewrite stn_mid by lens. cbn [rbind]. unfold st8. change HE_MAX_IPV4_STRING_LENGTH with 24.
  pose proof (nul23 L) as N. pose proof (len_nonneg a). pose proof (len_nonneg c).
  assert (len (padded 24 (cstr s)) = 24) as Lp by (apply len_padded; auto).
  rewrite stn_ok in N by lens. apply Val_inj in N.
  rewrite stn_ok by lens. f_equal. rewrite <- N. change (u8 0) with 0. change (len [0]) with 1 in *.
  replace (Z.to_nat (len a + 24 - 1)) with (length a + 23)%nat by (unfold len; lia).
  replace (Z.to_nat (len a + 24 - 1 + 1)) with (length a + 24)%nat by (unfold len; lia).
  change (Z.to_nat 23) with 23%nat. change (Z.to_nat (23 + 1)) with 24%nat.
  rewrite firstn_app_2, skipn_app, skipn_all2 by lia. cbn [app].
  replace (length a + 24 - length a)%nat with 24%nat by lia.
  rewrite firstn_app. replace (23 - length (padded 24 (cstr s)))%nat with 0%nat by (unfold len in Lp; lia).
  rewrite skipn_app. replace (24 - length (padded 24 (cstr s)))%nat with 0%nat by (unfold len in Lp; lia).
  cbn [firstn skipn]. rewrite app_nil_r, <- !app_assoc. reflexivity.
Qed.

Lemma build_config_ipv4_ok le session l p d :
  len l = 24 -> len p = 24 -> len d = 24 ->
  build_config_ipv4 le session l p d =
  Val (config_message le (firstn 23 (cstr l)) (firstn 23 (cstr p)) (firstn 23 (cstr d)) session).
Proof.
  intros Hl Hp Hd. unfold build_config_ipv4, st8, sth64. change sizeof_config_ipv4 with 105.
  assert (forall s, len (firstn 23 (cstr s)) <= 24) as L by (intros; rewrite len_firstn; lia).
  rewrite stn_start by lens. cbn [rbind]. rewrite stn_zeros by lens. cbn [rbind].
  rewrite len_bytes64. change (len [u8 HE_MSGID_CONFIG_IPV4]) with 1. change (u8 HE_MSGID_CONFIG_IPV4) with HE_MSGID_CONFIG_IPV4.
  change (zeros (105 - 1 - (97 - 1) - 8)) with (@nil Z). rewrite app_nil_r.
  change (zeros (97 - 1)) with (zeros 24 ++ zeros 24 ++ zeros 24 ++ zeros 24).
  set (s8 := bytes64 le session).
  pose proof (put_ipstr_ok [HE_MSGID_CONFIG_IPV4] (zeros 24 ++ zeros 24 ++ zeros 24 ++ s8) Hl) as P1.
  change (len [HE_MSGID_CONFIG_IPV4]) with 1 in P1. rewrite <- !app_assoc. rewrite P1. cbn [rbind]. clear P1.
  pose proof (put_ipstr_ok ([HE_MSGID_CONFIG_IPV4] ++ padded 24 (firstn 23 (cstr l)))
                (zeros 24 ++ zeros 24 ++ s8) Hp) as P2.
  rewrite len_app, (len_padded (L l)) in P2. change (len [HE_MSGID_CONFIG_IPV4] + 24) with 25 in P2.
  rewrite <- !app_assoc in P2. rewrite P2. cbn [rbind]. clear P2.
  pose proof (put_ipstr_ok ([HE_MSGID_CONFIG_IPV4] ++ padded 24 (firstn 23 (cstr l)) ++ padded 24 (firstn 23 (cstr p)))
                (zeros 24 ++ s8) Hd) as P3.
  rewrite !len_app, (len_padded (L l)), (len_padded (L p)) in P3.
  change (len [HE_MSGID_CONFIG_IPV4] + (24 + 24)) with 49 in P3.
  rewrite <- !app_assoc in P3. rewrite P3. cbn [rbind]. clear P3.
  change (strncpy_nat HE_MAX_MTU_STR (Z.to_nat HE_MAX_IPV4_STRING_LENGTH)) with (Val (padded 24 [49; 51; 53; 48])).
  cbn [rbind].
  pose proof (stn_mid ([HE_MSGID_CONFIG_IPV4] ++ padded 24 (firstn 23 (cstr l)) ++ padded 24 (firstn 23 (cstr p)) ++
     padded 24 (firstn 23 (cstr d))) (zeros 24) s8 (off := 73) (padded 24 [49; 51; 53; 48])) as P4.
  rewrite <- !app_assoc in P4. rewrite P4; [reflexivity| |reflexivity].
  rewrite !len_app, (len_padded (L l)), (len_padded (L p)), (len_padded (L d)). reflexivity.
Qed.

Lemma get_ipstr_ok m off :
  0 <= off -> off + 24 <= len m ->
  get_ipstr m off = Val (padded 24 (firstn 23 (cstr (slice m off 24)))).
Proof.
  intros H1 H2. unfold get_ipstr. change HE_MAX_IPV4_STRING_LENGTH with 24 at 1 4.
  rewrite ldn_ok by lia. cbn [rbind]. assert (len (slice m off 24) = 24) as L by (rewrite len_slice; lia).
  rewrite strncpy24 by auto. cbn [rbind]. change (zeros HE_MAX_IPV4_STRING_LENGTH) with (zeros 24).
  pose proof (cstr_length (slice m off 24)). 
  rewrite stn_start by (rewrite len_padded; unfold len in *; lia).
  rewrite len_padded by (unfold len in *; lia). change (zeros (24 - 24)) with (@nil Z). rewrite app_nil_r.
  cbn [rbind]. apply nul23; auto.
Qed.
Lemma ipstr_form s : len (padded 24 (firstn 23 s)) = 24 /\ nth 23 (padded 24 (firstn 23 s)) 0 = 0.
Proof.
  assert (len (firstn 23 s) <= 23) by (rewrite len_firstn; lia).
  split; [apply len_padded; lia|]. unfold padded. rewrite app_nth2 by (unfold len in *; lia).
  unfold zeros. apply nth_repeat.
Qed.

Lemma parse_mtu_ok f : len f = 24 -> exists m, parse_mtu f = Val m /\ 1 <= m <= HE_MAX_MTU.
Proof.
  intros L. unfold parse_mtu, st8. change HE_MAX_IPV4_STRING_LENGTH with 24. change HE_MAX_MTU with 1350.
  rewrite stn_ok by lens. cbn [rbind]. destruct (sscanf_u _) as [v|]; [|eexists; split; [reflexivity|lia]].
  destruct ((v <=? 0) || (1350 <? v)) eqn:E; eexists; split; try reflexivity; lia.
Qed.
