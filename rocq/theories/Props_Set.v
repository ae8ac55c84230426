(** C23: what the setters accept and store. *)
From Verif Require Import Base Codes Ctx Config Mss Frag FragSpec
  Wire WireSpec WireProofs ConnState Conn ConnSpec CallSpec CredSpec ConnSteps ConnWpApi Frame Seq SeqApi SetProofs Scenario Props_Data.
Unset Strict Implicit.

(** What he_conn_get_username returns, and the other credentials. *)
Definition username (c : conn) : bytes := cstr (c_username c).
Definition password (c : conn) : bytes := cstr (c_password c).
Definition auth_data (c : conn) : bytes := firstn (Z.to_nat (c_auth_len c)) (c_auth_buf c).
(** The verdict on a string of [n] bytes. *)
Definition string_verdict (n : Z) : Z :=
  if n =? 0 then HE_ERR_EMPTY_STRING else if 50 <? n then HE_ERR_STRING_TOO_LONG else HE_SUCCESS.

(** he_conn_set_username, he_conn_set_password: strings of 1 to 50 bytes are
    accepted; those of up to 49 bytes are stored as they are, those of 50 lose
    the last byte; a refused string changes nothing but the authentication
    method, an accepted one in addition only this string. *)
Theorem C23_username : forall E s w rc w', reached E w -> call E (OSetUsername s) w rc w' ->
  rc = string_verdict (len (text s)) /\
  username (w_c w') = (if rc =? HE_SUCCESS then firstn 49 (text s) else username (w_c w)) /\
  exists f, w_c w' = set_username f (set_auth_type HE_AUTH_TYPE_USERPASS (w_c w)).
Proof.
  intros E s w rc w' Re C. destruct (username_call Re C) as (f & Sf & Cw). pose proof (ok_username (reached_cok Re)) as L.
  rewrite (set_string_spec s L) in Sf. unfold string_verdict, text, username. rewrite Cw.
  change (c_username (set_username f (set_auth_type HE_AUTH_TYPE_USERPASS (w_c w)))) with f.
  destruct (_ =? 0); [|destruct (Z.ltb_spec 50 (len (cstr (u8s s))))]; injection Sf as <- <-; (split; [reflexivity|]); (split; [|eauto]); try reflexivity.
  change (HE_SUCCESS =? HE_SUCCESS) with true. cbv iota. apply stored_text; [apply cstr_idem|lia].
Qed.
Print Assumptions C23_username.
Theorem C23_password : forall E s w rc w', reached E w -> call E (OSetPassword s) w rc w' ->
  rc = string_verdict (len (text s)) /\
  password (w_c w') = (if rc =? HE_SUCCESS then firstn 49 (text s) else password (w_c w)) /\
  exists f, w_c w' = set_password f (set_auth_type HE_AUTH_TYPE_USERPASS (w_c w)).
Proof.
  intros E s w rc w' Re C. destruct (password_call Re C) as (f & Sf & Cw). pose proof (ok_password (reached_cok Re)) as L.
  rewrite (set_string_spec s L) in Sf. unfold string_verdict, text, password. rewrite Cw.
  change (c_password (set_password f (set_auth_type HE_AUTH_TYPE_USERPASS (w_c w)))) with f.
  destruct (_ =? 0); [|destruct (Z.ltb_spec 50 (len (cstr (u8s s))))]; injection Sf as <- <-; (split; [reflexivity|]); (split; [|eauto]); try reflexivity.
  change (HE_SUCCESS =? HE_SUCCESS) with true. cbv iota. apply stored_text; [apply cstr_idem|lia].
Qed.
Print Assumptions C23_password.

Lemma stored_data (b f : bytes) c ty : auth_data (set_auth_len (len b) (set_auth_buf (u8s b ++ f) (set_auth_type ty c))) = u8s b.
Proof.
  unfold auth_data. change (firstn (Z.to_nat (len b)) (u8s b ++ f) = u8s b). unfold len. rewrite Nat2Z.id.
  replace (length b) with (length (u8s b)) by (unfold u8s; apply map_length). apply firstn_app_exact.
Qed.
(** he_conn_set_auth_token: 1 to 1349 bytes, stored as they are; a refused token
    changes nothing. *)
Theorem C23_token : forall E b w rc w', reached E w -> call E (OSetToken b) w rc w' ->
  rc = (if len b =? 0 then HE_ERR_EMPTY_STRING else if 1350 <=? len b then HE_ERR_STRING_TOO_LONG else HE_SUCCESS) /\
  (rc <> HE_SUCCESS -> w_c w' = w_c w) /\
  (rc = HE_SUCCESS -> auth_data (w_c w') = u8s b /\ c_auth_type (w_c w') = HE_AUTH_TYPE_TOKEN /\
     exists n f, w_c w' = set_auth_len n (set_auth_buf f (set_auth_type HE_AUTH_TYPE_TOKEN (w_c w)))).
Proof.
  intros E b w rc w' Re C. destruct (token_call Re C) as [Hr Hc]. split; [exact Hr|]. rewrite Hc. clear Hr Hc C.
  destruct (Z.eqb_spec rc HE_SUCCESS) as [R|R]; (split; [congruence|]); intros; [|congruence]. split; [apply stored_data|]. split; [reflexivity|eauto].
Qed.
Print Assumptions C23_token.
(** he_conn_set_auth_buffer2 (its length is 16 bits): 1 to 1346 bytes. *)
Theorem C23_buffer : forall E b w rc w', reached E w -> len b <= 65535 -> call E (OSetAuthBuf b) w rc w' ->
  rc = (if len b =? 0 then HE_ERR_EMPTY_STRING else if 1346 <? len b then HE_ERR_STRING_TOO_LONG else HE_SUCCESS) /\
  (rc <> HE_SUCCESS -> w_c w' = w_c w) /\
  (rc = HE_SUCCESS -> auth_data (w_c w') = u8s b /\ c_auth_type (w_c w') = HE_AUTH_TYPE_CB /\
     exists n f, w_c w' = set_auth_len n (set_auth_buf f (set_auth_type HE_AUTH_TYPE_CB (w_c w)))).
Proof.
  intros E b w rc w' Re Lb C. destruct (buffer_call Re Lb C) as [Hr Hc]. split; [exact Hr|]. rewrite Hc. clear Hr Hc C.
  destruct (Z.eqb_spec rc HE_SUCCESS) as [R|R]; (split; [congruence|]); intros; [|congruence]. split; [apply stored_data|]. split; [reflexivity|eauto].
Qed.
Print Assumptions C23_buffer.
(** he_conn_set_sni_hostname never fails and stores the first 255 bytes. *)
Theorem C23_sni : forall E s w rc w', reached E w -> call E (OSetSni s) w rc w' ->
  rc = HE_SUCCESS /\ exists f, w_c w' = set_sni f (w_c w) /\ firstn 255 f = firstn 255 (text s ++ zeros 255).
Proof. intros E s w rc w' Re C. destruct (sni_call Re C) as (R & f & A & B & _). split; [exact R|]. eauto. Qed.
Print Assumptions C23_sni.

(** ** What does not hold *)
(** An accepted string of 50 bytes is not stored unchanged. *)
Definition fifty : bytes := repeat 97 50.
Theorem C23_truncated_refuted : exists s w',
  len s = 50 /\ Forall (fun b => b <> 0) s /\ call plain_env (OSetUsername s) world_new HE_SUCCESS w' /\ username (w_c w') <> s.
Proof.
  exists fifty, (world_at [OSetUsername fifty]). split; [reflexivity|]. split; [repeat constructor; discriminate|]. split; [vm_compute; reflexivity|].
  vm_compute. discriminate.
Qed.
Print Assumptions C23_truncated_refuted.
(** A refused username is not without effect: here the client has set a token,
    he_conn_set_username refuses an empty string, and when the connection comes
    up an empty username and password are sent instead of the token. *)
Definition token : bytes := [116; 111; 107; 101; 110].
Definition token_client (l : list op) : list op := [OSetToken token] ++ l ++ [OSetMtu 1500; OClientConnect dctx [] []; OOutside (dgram 0 [])].
Theorem C23_refused_username_refuted : exists ops w',
  run plain_env 0 (ops ++ [OSetUsername []]) world_new = Done tt w' /\
  (exists past s, w_t w' = (s, ERet (OSetUsername []) HE_ERR_EMPTY_STRING) :: past) /\
  collect sent (w_t (world_at (token_client []))) = [auth_buffer_message HE_AUTH_TYPE_TOKEN token] /\
  collect sent (w_t (world_at (token_client [OSetUsername []]))) = [userpass_message [] []].
Proof.
  exists [OSetToken token], (world_at [OSetToken token; OSetUsername []]). split; [vm_compute; reflexivity|]. split; [eexists _, _; vm_compute; reflexivity|].
  split; vm_compute; reflexivity.
Qed.
Print Assumptions C23_refused_username_refuted.

(** ** The theorems say something *)
Example C23_example :
  let w := world_at [OSetMtu 1400] in
  reached plain_env w /\
  (exists w', call plain_env (OSetUsername user) w HE_SUCCESS w' /\ username (w_c w') = user) /\
  (exists w', call plain_env (OSetUsername (repeat 97 51)) w HE_ERR_STRING_TOO_LONG w') /\
  (exists w', call plain_env (OSetToken token) w HE_SUCCESS w' /\ auth_data (w_c w') = token) /\
  (exists w', call plain_env (OSetAuthBuf (repeat 97 1347)) w HE_ERR_STRING_TOO_LONG w').
Proof.
  cbv zeta. split; [apply world_at_reached; vm_compute; reflexivity|].
  split; [exists (world_at [OSetMtu 1400; OSetUsername user]); split; vm_compute; reflexivity|].
  split; [exists (world_at [OSetMtu 1400; OSetUsername (repeat 97 51)]); vm_compute; reflexivity|].
  split; [exists (world_at [OSetMtu 1400; OSetToken token]); split; vm_compute; reflexivity|].
  exists (world_at [OSetMtu 1400; OSetAuthBuf (repeat 97 1347)]); vm_compute; reflexivity.
Qed.
