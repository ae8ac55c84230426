(** C15: credentials arrive at the server's callbacks as the client's host set
    them. *)
From Verif Require Import Base Codes Ctx Config Mss MssSpec Frag FragSpec
  Wire WireSpec WireProofs ConnState Conn ConnSpec CallSpec MsgSpec CredSpec ConnSteps ConnWpApi Frame Seq SeqLoop SeqApi SetProofs
  Scenario Props_Data CredProofs CredServer.
Unset Strict Implicit.

(** ** The client sends what was set *)
(** On a connection that never was a server's, credentials are sent exactly when
    TLS comes up (once) and when the timer fires while the client waits for the
    answer (once); the message is the one that carries what the calls to the
    setters have established.  No other call sends any. *)
Theorem C15_login : forall E o w rc w', reached E w -> has server_call (w_t w) = false -> is_server_op o = false -> call E o w rc w' ->
  let k := given (w_t w) in
  exists l, during login w w' l /\
    match o with
    | OClientConnect _ _ _ | OOutside _ => l = [] \/ l = None :: map Some (auth_message k)
    | ONudge => l = if c_state (w_c w) =? HE_STATE_AUTHENTICATING then map Some (auth_message k) else []
    | _ => l = []
    end.
Proof.
  intros E o w rc w' Re Sv No C. cbv zeta. destruct (known_reached Re Sv) as (Is & Hd & Ok). rewrite <- Hd. destruct (setter o) eqn:St.
  - exists []. split; [exact (setter_login St C)|]. destruct o; try discriminate St; reflexivity.
  - destruct (@login_call E (w_c w) (reached_cok Re) Ok o w rc w' eq_refl Is No St C) as (_ & _ & H). exact H.
Qed.
Print Assumptions C15_login.

(** ** The server asks what it receives *)
(** he_conn_outside_data_received: for each message received, in order, exactly
    the question that message contains, if any; a client asks nothing. *)
Theorem C15_questions : forall E b w rc w', call E (OOutside b) w rc w' ->
  exists ds, during (both questions) w w' (caused ds) /\
    Forall (fun d : (Z * bytes) * list auth_question => let '(_, m, qs) := d in
              qs = if c_is_server (w_c w) then asks (c_cbs (w_c w)) m else []) ds.
Proof.
  intros E b w rc w' C. destruct (asked_during C) as (ds & D & F & _). exists ds. split; [exact D|]. eapply Forall_impl; [|exact F]. intros [[s m] qs] H. exact H.
Qed.
Print Assumptions C15_questions.
(** No other call asks anything. *)
Theorem C15_no_questions : forall E o w rc w', (forall b, o <> OOutside b) -> call E o w rc w' -> during questions w w' [].
Proof.
  intros E o w rc w' No C. destruct (call_body C) as (w1 & Bd & ->). apply during_call; try reflexivity.
  set (I := fun v : world => collect questions (w_t v) = collect questions (w_t w)).
  assert (forall e v, (forall s, questions s e = []) -> I v -> I (push e v)) as Hp.
  { intros e v H H1. unfold I. cbn [push w_t collect]. now rewrite H, app_nil_r. }
  assert (forall f v, I v -> I (with_c f v)) as Hc by (intros f v H; exact H).
  assert (forall e v, io_event e = false -> I v -> I (push e v)) as He.
  { intros e v H. apply Hp. intros s. destruct e; try reflexivity; discriminate H. }
  assert (forall sz, keeps I (fun _ => True) (io_read sz)) as Hr by (intros sz; apply keeps_io_read; auto).
  assert (forall b, keeps I (fun _ => True) (io_write E (ret tt) b)) as Hw by (intros b; apply keeps_io_write; auto; apply keeps_ret).
  assert (keeps I (fun _ => True) (api_body E (ret tt) o)) as K.
  { apply keeps_api_body; auto; try apply keeps_ret. intros x i p. apply keeps_server_connect; auto; apply keeps_ret. }
  specialize (K (push (ECall o) w) ltac:(apply Hp; reflexivity)). rewrite Bd in K. apply during_nil. unfold I in K. rewrite K. cbn [push w_t collect questions]. now rewrite app_nil_r.
Qed.
Print Assumptions C15_no_questions.

(** ** The two fit together *)
(** The callback for a method is there. *)
Definition answers (k : cbs) (method : Z) : bool :=
  cb_populate k && (if method =? HE_AUTH_TYPE_USERPASS then cb_auth k else if method =? HE_AUTH_TYPE_TOKEN then cb_authtok k else cb_authbuf k).

Lemma len_zeros n : 0 <= n -> len (zeros n) = n.
Proof. intros H. unfold len, zeros. rewrite repeat_length. lia. Qed.
Lemma len_padded n s : len s <= n -> len (padded n s) = n.
Proof. intros H. unfold padded. rewrite len_app, len_zeros by lia. lia. Qed.
Lemma cstr_padded n s : cstr s = s -> len s < n -> cstr (padded n s) = s.
Proof.
  intros H L. unfold padded, zeros. pose proof (len_nonneg s). destruct (Z.to_nat (n - len s)) as [|k] eqn:N; [lia|]. cbn [repeat]. generalize (repeat 0 k). clear N L.
  induction s as [|b s IH]; intros r; [reflexivity|]. cbn [cstr app] in *. destruct (b =? 0); [discriminate H|]. injection H as H. f_equal. now apply IH; [|apply len_nonneg].
Qed.
Lemma userpass_asks k u p : len u <= 49 -> len p <= 49 -> answers k HE_AUTH_TYPE_USERPASS = true ->
  asks k (userpass_message u p) = [AskUser (padded 50 u) (padded 50 p)].
Proof.
  intros Lu Lp A. apply andb_true_iff in A. destruct A as [A1 A2]. cbn [HE_AUTH_TYPE_USERPASS Z.eqb Pos.eqb] in A2. unfold asks.
  assert (len (userpass_message u p) = 104) as L. { unfold userpass_message. rewrite !len_app, !len_padded by lia. reflexivity. }
  rewrite L, A1, A2. cbn [negb orb andb Z.ltb Z.compare Pos.compare Pos.compare_cont Z.leb]. change (msg_type (userpass_message u p)) with HE_MSGID_AUTH. cbn [Z.eqb HE_MSGID_AUTH Pos.eqb negb orb].
  change (byte_at (userpass_message u p) 1) with HE_AUTH_TYPE_USERPASS. cbn [Z.eqb HE_AUTH_TYPE_USERPASS Pos.eqb]. cbv zeta iota. f_equal.
  assert (length (padded 50 u) = 50%nat /\ length (padded 50 p) = 50%nat) as [Nu Np].
  { pose proof (@len_padded 50 u). pose proof (@len_padded 50 p). unfold len in *. lia. }
  unfold userpass_message, slice. change (Z.to_nat 4) with 4%nat. change (Z.to_nat 50) with 50%nat. replace (Z.to_nat 54) with (4 + length (padded 50 u))%nat by lia.
  assert (forall (a b c : bytes) n, length a = n -> skipn n (a ++ b) = b) as Sk by (intros a b _ n <-; apply skipn_app_exact).
  assert (forall (a b : bytes) n, length a = n -> firstn n (a ++ b) = a) as Fn by (intros a b n <-; apply firstn_app_exact).
  f_equal.
  - rewrite (Sk [HE_MSGID_AUTH; HE_AUTH_TYPE_USERPASS; len u; len p] (padded 50 u ++ padded 50 p) []) by reflexivity. now apply Fn.
  - rewrite app_assoc, (Sk _ (padded 50 p) []) by (rewrite app_length; reflexivity). apply firstn_all2. lia.
Qed.
Lemma buffer_field ty d : len d < 65536 -> field16 (auth_buffer_message ty d) 2 = len d.
Proof. intros L. pose proof (len_nonneg d). unfold field16, auth_buffer_message, be16. cbn [app nth]. Z.div_mod_to_equations. lia. Qed.
Lemma buffer_slice ty d : slice (auth_buffer_message ty d) 4 (len d) = d.
Proof. unfold auth_buffer_message, be16, slice. cbn [app Z.to_nat Pos.to_nat Pos.iter_op Nat.add skipn]. unfold len. now rewrite Nat2Z.id, firstn_all. Qed.
Lemma buffer_len ty d : len (auth_buffer_message ty d) = 4 + len d.
Proof. unfold auth_buffer_message, be16. cbn [app]. rewrite !len_cons. lia. Qed.

(** A message a client sends asks a server exactly for what was set on the
    client: the username and the password as C strings in arrays of 50 bytes, the
    token, or the buffer. *)
Theorem C15_round_trip : forall E w m k, reached E w -> has server_call (w_t w) = false ->
  let c := given (w_t w) in
  In m (auth_message c) -> answers k (cr_method c) = true ->
  match asks k m with
  | [AskUser u p] => cr_method c = HE_AUTH_TYPE_USERPASS /\ len u = 50 /\ len p = 50 /\ In 0 u /\ In 0 p /\ cstr u = cr_user c /\ cstr p = cr_pass c
  | [AskToken b] => cr_method c = HE_AUTH_TYPE_TOKEN /\ b = cr_data c
  | [AskBuf ty b] => cr_method c = HE_AUTH_TYPE_CB /\ ty = HE_AUTH_TYPE_CB /\ b = cr_data c
  | _ => False
  end.
Proof.
  intros E w m k Re Sv. cbv zeta. destruct (known_reached Re Sv) as (_ & Hd & (Lu & Lp & Lc & Lt)). rewrite <- Hd. pose proof (reached_cok Re) as Cok.
  unfold auth_message, held. cbn [cr_method cr_user cr_pass cr_data]. intros Hm A.
  assert (forall s, len s <= 49 -> In 0 (padded 50 s)) as Z0.
  { intros s Ls. unfold padded. apply in_or_app. right. unfold zeros. destruct (Z.to_nat (50 - len s)) eqn:N; [lia|]. now left. }
  destruct (Z.eqb_spec (c_auth_type (w_c w)) HE_AUTH_TYPE_USERPASS) as [M1|M1].
  { destruct Hm as [<-|[]]. rewrite M1 in A. rewrite userpass_asks by auto. split; [exact M1|]. split; [apply len_padded; lia|]. split; [apply len_padded; lia|].
    split; [auto|]. split; [auto|]. split; apply cstr_padded; try apply cstr_idem; lia. }
  pose proof (ok_auth_len Cok) as La. pose proof (ok_auth_buf Cok) as Lb. change HE_MAX_MTU with 1350 in *.
  assert (len (firstn (Z.to_nat (c_auth_len (w_c w))) (c_auth_buf (w_c w))) = c_auth_len (w_c w)) as Ld by (unfold len in *; rewrite firstn_length; lia).
  set (d := firstn (Z.to_nat (c_auth_len (w_c w))) (c_auth_buf (w_c w))) in *.
  assert (forall ty, 0 < len d -> negb (msg_type (auth_buffer_message ty d) =? HE_MSGID_AUTH) || negb (cb_populate k) || (len (auth_buffer_message ty d) <? 2) = negb (cb_populate k)) as Hh.
  { intros ty D0. change (msg_type (auth_buffer_message ty d)) with HE_MSGID_AUTH. rewrite buffer_len. destruct (Z.ltb_spec (4 + len d) 2); [lia|]. cbn. now rewrite orb_false_r. }
  destruct (Z.eqb_spec (c_auth_type (w_c w)) HE_AUTH_TYPE_TOKEN) as [M2|M2].
  { destruct Hm as [<-|[]]. specialize (Lt M2). rewrite M2 in A. apply andb_true_iff in A. destruct A as [A1 A2]. change (cb_authtok k = true) in A2.
    unfold asks. rewrite Hh by lia. rewrite A1. cbn [negb]. cbv zeta iota. change (byte_at (auth_buffer_message HE_AUTH_TYPE_TOKEN d) 1) with HE_AUTH_TYPE_TOKEN.
    change (HE_AUTH_TYPE_TOKEN =? HE_AUTH_TYPE_USERPASS) with false. change (HE_AUTH_TYPE_TOKEN =? HE_AUTH_TYPE_TOKEN) with true. cbv iota.
    rewrite buffer_field, buffer_len by lia. rewrite buffer_slice, A2. destruct (Z.ltb_spec 4 (4 + len d)); [|lia]. rewrite Z.leb_refl. cbn [andb]. auto. }
  destruct (Z.eqb_spec (c_auth_type (w_c w)) HE_AUTH_TYPE_CB) as [M3|M3].
  { destruct Hm as [<-|[]]. specialize (Lc M3). rewrite M3 in A. apply andb_true_iff in A. destruct A as [A1 A2]. change (cb_authbuf k = true) in A2.
    unfold asks. rewrite Hh by lia. rewrite A1. cbn [negb]. cbv zeta iota. change (byte_at (auth_buffer_message HE_AUTH_TYPE_CB d) 1) with HE_AUTH_TYPE_CB.
    change (HE_AUTH_TYPE_CB =? HE_AUTH_TYPE_USERPASS) with false. change (HE_AUTH_TYPE_CB =? HE_AUTH_TYPE_TOKEN) with false. change (HE_AUTH_TYPE_CB =? HE_AUTH_TYPE_CB) with true. cbv iota.
    rewrite buffer_field, buffer_len by lia. rewrite buffer_slice, A2. destruct (Z.ltb_spec 4 (4 + len d)); [|lia]. rewrite Z.leb_refl. cbn [andb]. auto. }
  destruct Hm.
Qed.
Print Assumptions C15_round_trip.

(** ** What does not hold *)
(** The arrays a server's auth_cb receives need not be C strings: here a peer fills
    all 50 bytes of the username, so that there is no NUL, and the callback,
    which is given no length, reads on. *)
Theorem C15_terminated_refuted : exists m w' u p,
  let w := world_at (firstn 3 server_up) in
  reached plain_env w /\ call plain_env (OOutside (dgram 0 m)) w HE_SUCCESS w' /\
  during questions w w' [AskUser u p] /\ ~ In 0 u.
Proof.
  exists (userpass_message (repeat 97 50) pass), (world_at (firstn 3 server_up ++ [OOutside (dgram 0 (userpass_message (repeat 97 50) pass))])), (repeat 97 50), (padded 50 pass).
  cbv zeta. split; [apply world_at_reached; vm_compute; reflexivity|]. split; [vm_compute; reflexivity|]. split; [vm_compute; reflexivity|].
  vm_compute. intros H. repeat (destruct H as [H|H]; [discriminate H|]). exact H.
Qed.
Print Assumptions C15_terminated_refuted.

(** ** The theorems say something *)
(** The client: TLS comes up and the credentials set earlier go out; the timer
    fires and they go out again. *)
Example C15_client_example :
  let w := world_at (firstn 4 client_up) in
  let w1 := world_at (firstn 5 client_up) in
  let w2 := world_at (firstn 5 client_up ++ [ONudge]) in
  let m := userpass_message user pass in
  reached plain_env w /\ has server_call (w_t w) = false /\
  given (w_t w) = Creds HE_AUTH_TYPE_USERPASS user pass [] /\
  call plain_env (OOutside (dgram 0 [])) w HE_SUCCESS w1 /\ during login w w1 [None; Some m] /\
  call plain_env ONudge w1 HE_SUCCESS w2 /\ during login w1 w2 [Some m].
Proof.
  cbv zeta. split; [apply world_at_reached; vm_compute; reflexivity|]. split; [vm_compute; reflexivity|]. split; [vm_compute; reflexivity|].
  split; [vm_compute; reflexivity|]. split; [vm_compute; reflexivity|]. split; vm_compute; reflexivity.
Qed.
(** The server that receives this message asks for these credentials. *)
Example C15_server_example :
  let w := world_at (firstn 3 server_up) in
  let w1 := world_at server_up in
  c_is_server (w_c w) = true /\ call plain_env (OOutside (dgram 0 (userpass_message user pass))) w HE_SUCCESS w1 /\
  during questions w w1 [AskUser (padded 50 user) (padded 50 pass)].
Proof. cbv zeta. split; [vm_compute; reflexivity|]. split; vm_compute; reflexivity. Qed.
(** A token, and an authentication buffer. *)
Example C15_token_example : forall t, t = [1; 2; 3] ->
  let w := world_at [OSetToken t; OSetMtu 1500; OClientConnect dctx [] []] in
  reached plain_env w /\ auth_message (given (w_t w)) = [auth_buffer_message HE_AUTH_TYPE_TOKEN t] /\
  asks all_cbs (auth_buffer_message HE_AUTH_TYPE_TOKEN t) = [AskToken t] /\
  let w := world_at [OSetAuthBuf t] in
  reached plain_env w /\ auth_message (given (w_t w)) = [auth_buffer_message HE_AUTH_TYPE_CB t] /\
  asks all_cbs (auth_buffer_message HE_AUTH_TYPE_CB t) = [AskBuf HE_AUTH_TYPE_CB t].
Proof.
  intros t ->. cbv zeta. split; [apply world_at_reached; vm_compute; reflexivity|]. split; [vm_compute; reflexivity|]. split; [vm_compute; reflexivity|].
  split; [apply world_at_reached; vm_compute; reflexivity|]. split; vm_compute; reflexivity.
Qed.
