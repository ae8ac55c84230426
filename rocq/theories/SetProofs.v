(** The setters: proofs for C23. *)
From Verif Require Import Base Codes Ctx Config Mss Frag FragSpec
  Wire WireSpec WireProofs ConnState Conn ConnSpec CallSpec ConnSteps ConnWpApi Frame Seq SeqApi.
Unset Strict Implicit.

(** The text of the C string a caller passes as [s]: up to the first NUL. *)
Lemma cmem_text s : cstr (cmem s) = cstr (u8s s).
Proof. apply cstr_app_nul, cstr_nonul. Qed.
Lemma cmem_len s : len (cmem s) = len (cstr (u8s s)) + 1.
Proof. unfold cmem. rewrite len_app. reflexivity. Qed.
Lemma cstr_head a l : (nth 0 (cstr (a :: l) ++ [0]) 0 =? 0) = (len (cstr (a :: l)) =? 0).
Proof.
  cbn [cstr]. destruct (a =? 0) eqn:Z0; [reflexivity|]. cbn [app nth]. rewrite Z0. rewrite len_cons.
  pose proof (len_nonneg (cstr l)). destruct (Z.eqb_spec (1 + len (cstr l)) 0); lia || reflexivity.
Qed.
Lemma cmem_empty s : (nth 0 (cmem s) 0 =? 0) = (len (cstr (u8s s)) =? 0).
Proof. unfold cmem. destruct (u8s s) as [|a l]; [reflexivity|apply cstr_head]. Qed.

Lemma set_string_spec f s : len f = 51 ->
  let t := cstr (u8s s) in
  set_config_string f (cmem s) =
  Val (if len t =? 0 then (HE_ERR_EMPTY_STRING, f)
       else if 50 <? len t then (HE_ERR_STRING_TOO_LONG, f)
       else (HE_SUCCESS, firstn 49 (padded 50 t) ++ 0 :: skipn 50 f)).
Proof.
  intros L t. unfold set_config_string, config_is_empty. pose proof (cmem_len s) as Lc. pose proof (len_nonneg (cstr (u8s s))).
  rewrite ld8_ok by lia. cbn [rbind]. change (Z.to_nat 0) with 0%nat. rewrite cmem_empty. fold t. destruct (len t =? 0); [reflexivity|].
  assert (length (cstr (cmem s)) < length (cmem s))%nat as LL by (rewrite cmem_text; unfold len in Lc; lia).
  unfold config_too_long, strnlen. rewrite strnlen_nat_cstr by auto. cbn [rbind]. rewrite cmem_text. fold t. change HE_CONFIG_TEXT_FIELD_LENGTH with 50.
  change (Z.of_nat (Z.to_nat (50 + 1))) with 51.
  assert ((50 <? Z.min (len t) 51) = (50 <? len t)) as -> by (destruct (Z.ltb_spec 50 (len t)), (Z.ltb_spec 50 (Z.min (len t) 51)); lia || reflexivity).
  destruct (Z.ltb_spec 50 (len t)) as [|Lt]; [reflexivity|].
  unfold strncpy. rewrite strncpy_nat_cstr by auto. cbn [rbind]. rewrite cmem_text. fold t. change (Z.to_nat 50) with 50%nat.
  assert (firstn 50 t ++ repeat 0 (50 - length t) = padded 50 t) as ->.
  { unfold padded, zeros. rewrite firstn_all2 by (unfold len in Lt; lia). do 2 f_equal. unfold len. lia. }
  assert (len (padded 50 t) = 50) as Lp.
  { unfold padded. rewrite len_app, len_zeros; unfold len in *; lia. }
  rewrite stn_ok by lia. rewrite Lp. cbn [rbind Z.to_nat firstn app]. change (Z.to_nat (0 + 50)) with 50%nat.
  unfold st8. rewrite stn_ok; [|lia|rewrite len_app, len_skipn, Lp, len_cons, len_nil; lia]. cbn [rbind]. change (u8 0) with 0. rewrite len_cons, len_nil.
  change (Z.to_nat (50 - 1)) with 49%nat. change (Z.to_nat (50 - 1 + (1 + 0))) with 50%nat.
  assert (length (padded 50 t) = 50%nat) as Lq by (unfold len in Lp; lia).
  rewrite firstn_app, Lq. cbn [Nat.sub firstn]. rewrite app_nil_r.
  rewrite skipn_app, Lq, (skipn_all2 (padded 50 t)) by lia. cbn [Nat.sub skipn app]. reflexivity.
Qed.
Lemma cstr_padded n s : cstr s = s -> cstr (padded n s) = s.
Proof.
  intros H. unfold padded. revert H. induction s as [|b s IH]; cbn [cstr app].
  - intros _. unfold zeros. destruct (Z.to_nat _); reflexivity.
  - destruct (b =? 0); [discriminate|]. intros [= H]. f_equal. generalize (n - len (b :: s)). intros k. clear IH.
    revert H. induction s as [|c s IH2]; cbn [cstr app]; [intros _; unfold zeros; destruct (Z.to_nat k); reflexivity|].
    destruct (c =? 0); [discriminate|]. intros [= H]. f_equal. auto.
Qed.
Lemma cstr_firstn n s : cstr s = s -> cstr (firstn n s) = firstn n s.
Proof.
  revert s. induction n as [|n IH]; intros [|b s]; cbn [firstn cstr]; auto. destruct (b =? 0); [discriminate|]. intros [= H]. f_equal. auto.
Qed.
Lemma cstr_cut a l : cstr (a ++ 0 :: l) = cstr a.
Proof. induction a as [|b a IH]; [reflexivity|]. cbn [app cstr]. destruct (b =? 0); [reflexivity|]. now rewrite IH. Qed.
Lemma cstr_idem s : cstr (cstr s) = cstr s.
Proof. induction s as [|b s IH]; [reflexivity|]. cbn [cstr]. destruct (b =? 0) eqn:Z0; [reflexivity|]. cbn [cstr]. now rewrite Z0, IH. Qed.
Lemma stored_text t f : cstr t = t -> len t <= 50 -> cstr (firstn 49 (padded 50 t) ++ 0 :: skipn 50 f) = firstn 49 t.
Proof.
  intros H L. rewrite cstr_cut. unfold padded. rewrite firstn_app.
  assert (cstr (firstn 49 t ++ firstn (49 - length t) (zeros (50 - len t))) = firstn 49 t) as ->; [|reflexivity].
  apply cstr_firstn with (n := 49%nat) in H. revert H. generalize (firstn 49 t) as a. intros a Ha.
  assert (exists k, firstn (49 - length t) (zeros (50 - len t)) = repeat 0 k) as [k ->].
  { unfold zeros. generalize (49 - length t)%nat, (Z.to_nat (50 - len t)). intros n m. exists (Nat.min n m). revert m. induction n; destruct m; cbn; auto. now rewrite IHn. }
  revert Ha. induction a as [|b a IH]; cbn [cstr app]; [destruct k; reflexivity|]. destruct (b =? 0); [discriminate|]. intros [= Ha]. f_equal. auto.
Qed.

Lemma username_call E s w rc w' : reached E w -> call E (OSetUsername s) w rc w' ->
  exists f, set_config_string (c_username (w_c w)) (cmem s) = Val (rc, f) /\
    w_c w' = set_username f (set_auth_type HE_AUTH_TYPE_USERPASS (w_c w)).
Proof.
  intros Re C. destruct (call_body C) as (w1 & Bd & ->). cbn [api_body] in Bd. unfold set_username_api in Bd.
  unfold bind, upd, get, lift in Bd. cbn [w_c push] in Bd. change (c_username (set_auth_type HE_AUTH_TYPE_USERPASS (w_c w))) with (c_username (w_c w)) in Bd.
  destruct (set_config_string _ _) as [[r f]|]; [|discriminate]. unfold ret in Bd. apply Done_inv in Bd. destruct Bd as [<- <-]. exists f. split; reflexivity.
Qed.
Lemma password_call E s w rc w' : reached E w -> call E (OSetPassword s) w rc w' ->
  exists f, set_config_string (c_password (w_c w)) (cmem s) = Val (rc, f) /\
    w_c w' = set_password f (set_auth_type HE_AUTH_TYPE_USERPASS (w_c w)).
Proof.
  intros Re C. destruct (call_body C) as (w1 & Bd & ->). cbn [api_body] in Bd. unfold set_password_api in Bd.
  unfold bind, upd, get, lift in Bd. cbn [w_c push] in Bd. change (c_password (set_auth_type HE_AUTH_TYPE_USERPASS (w_c w))) with (c_password (w_c w)) in Bd.
  destruct (set_config_string _ _) as [[r f]|]; [|discriminate]. unfold ret in Bd. apply Done_inv in Bd. destruct Bd as [<- <-]. exists f. split; reflexivity.
Qed.
Lemma token_call E b w rc w' : reached E w -> call E (OSetToken b) w rc w' ->
  rc = (if len b =? 0 then HE_ERR_EMPTY_STRING else if 1350 <=? len b then HE_ERR_STRING_TOO_LONG else HE_SUCCESS) /\
  w_c w' = (if rc =? HE_SUCCESS
            then set_auth_len (len b) (set_auth_buf (u8s b ++ skipn (length b) (c_auth_buf (w_c w))) (set_auth_type HE_AUTH_TYPE_TOKEN (w_c w)))
            else w_c w).
Proof.
  intros Re C. pose proof (ok_auth_buf (reached_cok Re)) as Lb. change HE_MAX_MTU with 1350 in Lb.
  destruct (call_body C) as (w1 & Bd & ->). cbn [api_body] in Bd. unfold set_auth_token in Bd.
  assert (len (u8s b) = len b) as L8 by (unfold u8s, len; now rewrite map_length). rewrite L8 in Bd. change HE_MAX_MTU with 1350 in Bd. pose proof (len_nonneg b).
  destruct (len b =? 0); [unfold ret in Bd; apply Done_inv in Bd as [<- <-]; split; reflexivity|].
  destruct (Z.leb_spec 1350 (len b)); [unfold ret in Bd; apply Done_inv in Bd as [<- <-]; split; reflexivity|].
  unfold bind, upd, get, lift in Bd. cbn [w_c push] in Bd. change (c_auth_buf (set_auth_type HE_AUTH_TYPE_TOKEN (w_c w))) with (c_auth_buf (w_c w)) in Bd.
  rewrite stn_ok in Bd by lia. unfold ret in Bd. apply Done_inv in Bd as [<- <-]. split; [reflexivity|]. cbn [push w_c]. change (HE_SUCCESS =? HE_SUCCESS) with true. cbv iota.
  rewrite L8. cbn [Z.to_nat firstn app]. replace (Z.to_nat (0 + len b)) with (length b) by (unfold len; lia).
  f_equal. unfold u16. apply Z.mod_small. lia.
Qed.
Lemma buffer_call E b w rc w' : reached E w -> len b <= 65535 -> call E (OSetAuthBuf b) w rc w' ->
  rc = (if len b =? 0 then HE_ERR_EMPTY_STRING else if 1346 <? len b then HE_ERR_STRING_TOO_LONG else HE_SUCCESS) /\
  w_c w' = (if rc =? HE_SUCCESS
            then set_auth_len (len b) (set_auth_buf (u8s b ++ skipn (length b) (c_auth_buf (w_c w))) (set_auth_type HE_AUTH_TYPE_CB (w_c w)))
            else w_c w).
Proof.
  intros Re Hb C. pose proof (ok_auth_buf (reached_cok Re)) as Lb. change HE_MAX_MTU with 1350 in Lb.
  destruct (call_body C) as (w1 & Bd & ->). cbn [api_body] in Bd. unfold set_auth_buffer in Bd.
  assert (len (u8s b) = len b) as L8 by (unfold u8s, len; now rewrite map_length).
  rewrite firstn_all2 in Bd by (unfold len in *; lia). cbv zeta in Bd. rewrite L8 in Bd. change HE_MAX_MTU with 1350 in Bd. change sizeof_auth_buf with 4 in Bd.
  change (1350 - 4) with 1346 in Bd. pose proof (len_nonneg b).
  destruct (len b =? 0); [unfold ret in Bd; apply Done_inv in Bd as [<- <-]; split; reflexivity|].
  destruct (Z.ltb_spec 1346 (len b)); [unfold ret in Bd; apply Done_inv in Bd as [<- <-]; split; reflexivity|].
  unfold bind, upd, get, lift in Bd. cbn [w_c push] in Bd. change (c_auth_buf (set_auth_type HE_AUTH_TYPE_CB (w_c w))) with (c_auth_buf (w_c w)) in Bd.
  rewrite stn_ok in Bd by lia. unfold ret in Bd. apply Done_inv in Bd as [<- <-]. split; [reflexivity|]. cbn [push w_c]. change (HE_SUCCESS =? HE_SUCCESS) with true. cbv iota.
  rewrite L8. cbn [Z.to_nat firstn app]. replace (Z.to_nat (0 + len b)) with (length b) by (unfold len; lia). reflexivity.
Qed.
Lemma sni_call E s w rc w' : reached E w -> call E (OSetSni s) w rc w' ->
  rc = HE_SUCCESS /\ exists f, w_c w' = set_sni f (w_c w) /\ firstn 255 f = firstn 255 (cstr (u8s s) ++ zeros 255) /\ skipn 255 f = skipn 255 (c_sni (w_c w)).
Proof.
  intros Re C. pose proof (ok_sni (reached_cok Re)) as Ls.
  destruct (call_body C) as (w1 & Bd & ->). cbn [api_body] in Bd. unfold set_sni_hostname, strncpy in Bd. pose proof (cmem_len s) as Lc.
  assert (length (cstr (cmem s)) < length (cmem s))%nat as LL by (rewrite cmem_text; unfold len in Lc; lia).
  rewrite strncpy_nat_cstr in Bd by auto. rewrite cmem_text in Bd. set (t := cstr (u8s s)) in *. change (Z.to_nat HE_MAX_HOSTNAME_LENGTH) with 255%nat in Bd.
  set (x := firstn 255 t ++ repeat 0 (255 - length t)) in *. assert (len x = 255) as Lx.
  { unfold x, len. rewrite app_length, firstn_length, repeat_length. lia. }
  cbn [rbind] in Bd. unfold bind, get, lift, upd in Bd. cbn [push w_c] in Bd. rewrite stn_ok in Bd by lia. unfold ret in Bd. apply Done_inv in Bd as [<- <-]. split; [reflexivity|].
  eexists. split; [reflexivity|]. rewrite Lx. change (Z.to_nat 0) with 0%nat. rewrite firstn_O. change (Z.to_nat (0 + 255)) with 255%nat. cbn [app].
  assert (length x = 255%nat) as Ln by (unfold len in Lx; lia). split.
  - rewrite firstn_app, Ln. change (255 - 255)%nat with 0%nat. rewrite firstn_O, app_nil_r, firstn_all2 by lia. unfold x. rewrite firstn_app. f_equal.
    unfold zeros. change (Z.to_nat 255) with 255%nat. generalize (length t). intros k. clear. symmetry.
    assert (forall n m, (n <= m)%nat -> firstn n (repeat 0 m) = repeat 0 n) as H.
    { induction n; intros [|m] H; cbn [firstn repeat]; auto; [lia|]. f_equal. apply IHn. lia. }
    apply H. lia.
  - rewrite skipn_app, Ln, (skipn_all2 x) by lia. reflexivity.
Qed.
