(** C43: starting a context configures wolfSSL completely or fails. *)
From Coq Require Import String.
From Verif Require Import Base Codes Ctx Props_Ctx Start StartSpec.
Unset Strict Implicit.

Lemma followed_nil : followed [] [] HE_SUCCESS.
Proof. left. repeat split. constructor. Qed.
Lemma followed_cons c a plan l rc : granted c a -> followed plan l rc -> followed (c :: plan) ((c, a) :: l) rc.
Proof.
  intros G [(-> & <- & A)|(b & c' & a' & r & -> & -> & A & N & ->)]; [left|right].
  - repeat split. now constructor.
  - exists ((c, a) :: b), c', a', r. repeat split; auto. now constructor.
Qed.
Lemma followed_stop c a plan rc : ~ granted c a -> rc = start_error c a -> followed (c :: plan) [(c, a)] rc.
Proof. intros N ->. right. exists [], c, a, plan. repeat split; auto. constructor. Qed.
Definition typed (x : ctx) : Prop := x_type x = HE_CONNECTION_TYPE_DATAGRAM \/ x_type x = HE_CONNECTION_TYPE_STREAM.
Definition is_stream (x : ctx) : bool := x_type x =? HE_CONNECTION_TYPE_STREAM.


Section F.
Variable answer : calls -> wolf_call -> Z.
Definition follows (plan : list wolf_call) (m : Run (Z * ctx)) : Prop :=
  forall l, exists rc x l', m l = ((rc, x), l ++ l') /\ followed plan l' rc.
Lemma follows_ret x : follows [] (rret (HE_SUCCESS, x)).
Proof. intros l. exists HE_SUCCESS, x, []. unfold rret. rewrite app_nil_r. split; [reflexivity|apply followed_nil]. Qed.
Lemma follows_wolf c plan k : (forall a, granted c a -> follows plan (k a)) -> (forall a, ~ granted c a -> exists x, k a = rret (start_error c a, x)) ->
  (forall a, granted c a \/ ~ granted c a) -> follows (c :: plan) (rbind (wolf answer c) k).
Proof.
  intros G N D l. unfold rbind, wolf. set (a := answer l c). destruct (D a) as [Ga|Na].
  - destruct (G a Ga (l ++ [(c, a)])) as (rc & x & l' & -> & F). exists rc, x, ((c, a) :: l'). rewrite <- app_assoc. split; [reflexivity|]. now apply followed_cons.
  - destruct (N a Na) as (x & ->). exists (start_error c a), x, [(c, a)]. split; [reflexivity|]. now apply followed_stop.
Qed.
Lemma granted_dec c a : granted c a \/ ~ granted c a.
Proof. destruct c; cbn [granted]; lia || auto. Qed.
Lemma follows_ok c plan k x : (forall a, granted c a <-> a = SSL_SUCCESS) -> follows plan k ->
  (forall a, start_error c a = HE_ERR_INIT_FAILED) ->
  follows (c :: plan) (rbind (wolf answer c) (fun r => if negb (r =? SSL_SUCCESS) then rret (HE_ERR_INIT_FAILED, x) else k)).
Proof.
  intros G F Se. apply follows_wolf; [| |intros; apply granted_dec].
  - intros a Ga. apply G in Ga. subst a. exact F.
  - intros a Na. destruct (Z.eqb_spec a SSL_SUCCESS) as [Q|Q]; [now destruct (Na (proj2 (G a) Q))|]. exists x. cbn [negb]. now rewrite Se.
Qed.
Lemma follows_common stream x : typed x -> (x_type x =? HE_CONNECTION_TYPE_STREAM) = stream -> follows (common_calls stream) (start_common answer x).
Proof.
  intros Ty <-. unfold start_common, common_calls, io_of. cbv zeta. cbn [set_x_min set_x_max set_x_wolf x_type].
  destruct Ty as [-> | ->]; cbn [Z.eqb HE_CONNECTION_TYPE_DATAGRAM HE_CONNECTION_TYPE_STREAM Pos.eqb];
    (apply follows_wolf; [intros _ _| |intros; apply granted_dec]; [|intros a N; now destruct N]);
    (apply follows_wolf; [intros _ _| |intros; apply granted_dec]; [|intros a N; now destruct N]).
  - apply follows_wolf; [| |intros; apply granted_dec].
    + intros a ->. apply follows_ret.
    + intros a N. destruct (Z.eqb_spec a SSL_SUCCESS) as [Q|Q]; [now destruct N|]. cbn [negb]. eauto.
  - apply follows_ret.
Qed.
Lemma follows_new tls dtls plan k x : typed x -> (forall w, follows plan (k (set_x_wolf w (x_io x) x)) \/ w = false) ->
  (exists y, k (set_x_wolf false (x_io x) x) = rret (HE_ERR_INIT_FAILED, y)) ->
  follows (CtxNew (if x_type x =? HE_CONNECTION_TYPE_STREAM then tls else dtls) :: plan) (rbind (new_ctx answer tls dtls x) k).
Proof.
  intros Ty K N.
  assert (forall m, follows (CtxNew m :: plan) (rbind (wolf answer (CtxNew m)) (fun r => rbind (rret (set_x_wolf (negb (r =? 0)) (x_io x) x)) k))) as H.
  { intros m. apply follows_wolf; [| |intros; apply granted_dec].
    - intros a Ga. cbn [granted] in Ga. unfold rbind, rret. destruct (Z.eqb_spec a 0) as [Q|Q]; [congruence|]. cbn [negb]. destruct (K true) as [F|F]; [exact F|discriminate F].
    - intros a Na. cbn [granted] in Na. assert (a = 0) as -> by lia. unfold rbind, rret. cbn [Z.eqb negb]. destruct N as (y & N). exists y. exact N. }
  unfold new_ctx. destruct Ty as [-> | ->]; cbn [Z.eqb HE_CONNECTION_TYPE_DATAGRAM HE_CONNECTION_TYPE_STREAM Pos.eqb]; exact (H _).
Qed.
End F.

(** The calls made when a client's context is started; if the configuration is
    incomplete wolfSSL is not called. *)
Theorem C43_client : forall answer f rc x' l, typed (f_ctx f) -> start answer f [] = ((rc, x'), l) ->
  let x := f_ctx f in
  if negb (cb_outside (x_cbs x)) then rc = HE_ERR_CONF_OUTSIDE_WRITE_CB_NOT_SET /\ l = []
  else if negb (x_ca x) then rc = HE_ERR_CONF_CA_NOT_SET /\ l = []
  else followed (client_calls (x_type x =? HE_CONNECTION_TYPE_STREAM) (x_chacha x) (f_ca f)) l rc.
Proof.
  intros answer [x ca cert key] rc x' l Ty. cbn [f_ctx f_ca] in *. cbv zeta. unfold start, ctx_valid_client, ctx_valid_common. cbn [f_ctx f_ca].
  destruct (cb_outside (x_cbs x)); cbn [negb]; [|intros [= <- _ <-]; auto]. change (HE_SUCCESS =? HE_SUCCESS) with true. cbn [negb].
  destruct (x_ca x); cbn [negb]; [|intros [= <- _ <-]; auto]. change (HE_SUCCESS =? HE_SUCCESS) with true. cbn [negb].
  match goal with |- ?m [] = _ -> followed ?plan _ _ => assert (follows plan m) as F end.
  2:{ destruct (F []) as (rc2 & x2 & l2 & -> & F2). intros [= <- _ <-]. exact F2. }
  unfold client_calls. cbn [app]. apply follows_new; [exact Ty| |].
  - intros [|]; [left|now right]. cbn [set_x_wolf x_wolf x_type x_chacha negb].
    apply follows_wolf; [| |intros; apply granted_dec].
    + intros a ->. change (negb (SSL_SUCCESS =? SSL_SUCCESS)) with false. cbv iota.
      assert (forall y, x_type y = x_type x -> follows (common_calls (x_type x =? HE_CONNECTION_TYPE_STREAM)) (start_common answer y)) as Cm.
      { intros y Hy. apply follows_common; unfold typed in *; now rewrite Hy. }
      destruct (x_type x =? HE_CONNECTION_TYPE_STREAM); cbn [app client_suites].
      * match goal with |- follows (CipherList ?a :: _) (rbind (wolf _ (CipherList ?b)) _) => replace a with b by (now destruct (x_chacha x)) end.
        apply follows_ok; [reflexivity| |reflexivity]. now apply Cm.
      * apply follows_ok; [reflexivity| |reflexivity].
        match goal with |- follows (CipherList ?a :: _) (rbind (wolf _ (CipherList ?b)) _) => replace a with b by (now destruct (x_chacha x)) end.
        apply follows_ok; [reflexivity| |reflexivity]. now apply Cm.
    + intros a N. destruct (Z.eqb_spec a SSL_SUCCESS) as [Q|Q]; [now destruct N|]. cbn [negb]. eexists. reflexivity.
  - cbn [set_x_wolf x_wolf negb]. eauto.
Qed.
Print Assumptions C43_client.
Theorem C43_server : forall answer f rc x' l, typed (f_ctx f) -> start_server answer f [] = ((rc, x'), l) ->
  let x := f_ctx f in
  if negb (cb_outside (x_cbs x)) then rc = HE_ERR_CONF_OUTSIDE_WRITE_CB_NOT_SET /\ l = []
  else if negb (x_cert_key x) then rc = HE_ERR_CONF_CA_NOT_SET /\ l = []
  else if negb (cb_auth (x_cbs x) || cb_authbuf (x_cbs x)) then rc = HE_ERR_CONF_AUTH_CB_NOT_SET /\ l = []
  else followed (server_calls (x_type x =? HE_CONNECTION_TYPE_STREAM) (f_cert f) (f_key f)) l rc.
Proof.
  intros answer [x ca cert key] rc x' l Ty. cbn [f_ctx f_cert f_key] in *. cbv zeta. unfold start_server, ctx_valid_server, ctx_valid_common, is_auth_cb_set. cbn [f_ctx f_cert f_key].
  destruct (cb_outside (x_cbs x)); cbn [negb]; [|intros [= <- _ <-]; auto]. change (HE_SUCCESS =? HE_SUCCESS) with true. cbn [negb].
  destruct (x_cert_key x); cbn [negb]; [|intros [= <- _ <-]; auto].
  destruct (cb_auth (x_cbs x) || cb_authbuf (x_cbs x)); cbn [negb]; [|intros [= <- _ <-]; auto]. change (HE_SUCCESS =? HE_SUCCESS) with true. cbn [negb].
  match goal with |- ?m [] = _ -> followed ?plan _ _ => assert (follows plan m) as F end.
  2:{ destruct (F []) as (rc2 & x2 & l2 & -> & F2). intros [= <- _ <-]. exact F2. }
  unfold server_calls. cbn [app]. apply follows_new; [exact Ty| |].
  - intros [|]; [left|now right]. cbn [set_x_wolf x_wolf x_type negb].
    assert (forall y, x_type y = x_type x -> follows (common_calls (x_type x =? HE_CONNECTION_TYPE_STREAM)) (start_common answer y)) as Cm.
    { intros y Hy. apply follows_common; unfold typed in *; now rewrite Hy. }
    apply follows_ok; [reflexivity| |reflexivity]. apply follows_ok; [reflexivity| |reflexivity].
    apply follows_wolf; [| |intros; apply granted_dec].
    + intros a ->. cbn [Z.eqb negb].
      match goal with |- follows (CipherList ?a :: _) (rbind (wolf _ (CipherList ?b)) _) => replace a with b by (now destruct (x_type x =? HE_CONNECTION_TYPE_STREAM)) end.
      apply follows_ok; [reflexivity| |reflexivity]. apply follows_ok; [reflexivity| |reflexivity]. now apply Cm.
    + intros a N. cbn [granted] in N. destruct (Z.eqb_spec a 0) as [Q|Q]; [now destruct N|]. cbn [negb]. eexists. reflexivity.
  - cbn [set_x_wolf x_wolf negb]. eauto.
Qed.
Print Assumptions C43_server.

(** The functions of [Ctx.v] are these with the answers only. *)
Lemma bind_wolf answer c B (k : Z -> Run B) l : rbind (wolf answer c) k l = k (answer l c) (l ++ [(c, answer l c)])%list.
Proof. reflexivity. Qed.
Lemma bind_new answer tls dtls x B (k : ctx -> Run B) l : typed x ->
  exists a l', rbind (new_ctx answer tls dtls x) k l = k (set_x_wolf (negb (a =? 0)) (x_io x) x) l'.
Proof. intros [Ty|Ty]; unfold new_ctx; rewrite Ty; eexists _, _; reflexivity. Qed.
Ltac next a := match goal with |- rbind (wolf ?an ?c) _ ?l = _ -> _ => rewrite bind_wolf; generalize (an l c); intros a end;
  match goal with |- _ ?l = _ -> _ => generalize l; intro end.
Lemma common_refines answer x rc x' l l' : typed x -> start_common answer x l = ((rc, x'), l') ->
  exists r, forall b c d e f g h i, ctx_start_common (WolfStart b c d e f g h i r) x = (rc, x').
Proof.
  intros Ty. unfold start_common, ctx_start_common. cbv zeta. cbn [set_x_wolf set_x_min set_x_max x_type ws_reneg]. rewrite !bind_wolf.
  destruct Ty as [-> | ->]; cbn [Z.eqb HE_CONNECTION_TYPE_DATAGRAM HE_CONNECTION_TYPE_STREAM Pos.eqb andb].
  - rewrite bind_wolf. match goal with |- context [negb (answer ?l ?c =? _)] => generalize (answer l c) end. intros a H. exists a. intros _ _ _ _ _ _ _ _.
    revert H. unfold rret. destruct (negb (a =? SSL_SUCCESS)); intros [= <- <- _]; reflexivity.
  - unfold rret. intros [= <- <- _]. exists 0. reflexivity.
Qed.
Theorem C43_client_refines : forall answer f rc x' l, typed (f_ctx f) -> start answer f [] = ((rc, x'), l) ->
  exists ws, ctx_start ws (f_ctx f) = (rc, x').
Proof.
  intros answer [x ca cert key] rc x' l Ty. cbn [f_ctx] in *. unfold start, ctx_start. cbn [f_ctx f_ca].
  destruct (negb (ctx_valid_client x =? HE_SUCCESS)); [intros [= <- <- _]; exists (WolfStart true 0 0 0 0 0 0 0 0); reflexivity|].
  match goal with |- rbind (new_ctx _ ?a ?b _) ?k ?l0 = _ -> _ => destruct (@bind_new answer a b x _ k l0 Ty) as (a1 & l1 & ->) end.
  assert (forall ws, ctx_new_wolf ws x = set_x_wolf (ws_ctx_new ws) (x_io x) x) as Nw by (intros ws; unfold ctx_new_wolf; destruct Ty as [-> | ->]; reflexivity).
  cbn [set_x_wolf x_wolf]. destruct (a1 =? 0); cbn [negb].
  { intros [= <- <- _]. exists (WolfStart false 0 0 0 0 0 0 0 0). rewrite Nw. reflexivity. }
  next a2. destruct (a2 =? SSL_SUCCESS) eqn:Q2; cbn [negb].
  2:{ intros [= <- <- _]. exists (WolfStart true a2 0 0 0 0 0 0 0). rewrite Nw. cbn [ws_ctx_new ws_load set_x_wolf x_wolf negb]. rewrite Q2. reflexivity. }
  change (x_type (set_x_wolf true (x_io x) x)) with (x_type x). assert (forall b, typed (set_x_wolf b (x_io x) x)) as Ty' by (intros b; exact Ty).
  destruct (x_type x =? HE_CONNECTION_TYPE_STREAM) eqn:St.
  - next a4. destruct (a4 =? SSL_SUCCESS) eqn:Q4; cbn [negb].
    2:{ intros [= <- <- _]. exists (WolfStart true a2 0 0 0 0 a4 0 0). rewrite Nw. cbn [ws_ctx_new ws_load ws_min ws_cipher set_x_wolf x_wolf x_type negb]. rewrite Q2, St, Q4. reflexivity. }
    intros H. apply common_refines in H; [|exact Ty]. destruct H as (r & H). exists (WolfStart true a2 0 0 0 0 a4 0 r). rewrite Nw. cbn [ws_ctx_new ws_load ws_min ws_cipher set_x_wolf x_wolf x_type negb]. rewrite Q2, St, Q4. cbn [negb andb]. apply H.
  - next a3. destruct (a3 =? SSL_SUCCESS) eqn:Q3; cbn [negb].
    2:{ intros [= <- <- _]. exists (WolfStart true a2 a3 0 0 0 0 0 0). rewrite Nw. cbn [ws_ctx_new ws_load ws_min ws_cipher set_x_wolf x_wolf x_type negb]. rewrite Q2, St, Q3. reflexivity. }
    next a4. destruct (a4 =? SSL_SUCCESS) eqn:Q4; cbn [negb].
    2:{ intros [= <- <- _]. exists (WolfStart true a2 a3 0 0 0 a4 0 0). rewrite Nw. cbn [ws_ctx_new ws_load ws_min ws_cipher set_x_wolf x_wolf x_type negb]. rewrite Q2, St, Q3, Q4. reflexivity. }
    intros H. apply common_refines in H; [|exact Ty]. destruct H as (r & H). exists (WolfStart true a2 a3 0 0 0 a4 0 r). rewrite Nw. cbn [ws_ctx_new ws_load ws_min ws_cipher set_x_wolf x_wolf x_type negb]. rewrite Q2, St, Q3, Q4. cbn [negb andb]. apply H.
Qed.
Print Assumptions C43_client_refines.
Theorem C43_server_refines : forall answer f rc x' l, typed (f_ctx f) -> start_server answer f [] = ((rc, x'), l) ->
  exists ws, ctx_start_server ws (f_ctx f) = (rc, x').
Proof.
  intros answer [x ca cert key] rc x' l Ty. cbn [f_ctx] in *. unfold start_server, ctx_start_server. cbn [f_ctx f_cert f_key].
  destruct (negb (ctx_valid_server x =? HE_SUCCESS)); [intros [= <- <- _]; exists (WolfStart true 0 0 0 0 0 0 0 0); reflexivity|].
  match goal with |- rbind (new_ctx _ ?a ?b _) ?k ?l0 = _ -> _ => destruct (@bind_new answer a b x _ k l0 Ty) as (a1 & l1 & ->) end.
  assert (forall ws, ctx_new_wolf ws x = set_x_wolf (ws_ctx_new ws) (x_io x) x) as Nw by (intros ws; unfold ctx_new_wolf; destruct Ty as [-> | ->]; reflexivity).
  cbn [set_x_wolf x_wolf]. destruct (a1 =? 0); cbn [negb].
  { intros [= <- <- _]. exists (WolfStart false 0 0 0 0 0 0 0 0). rewrite Nw. reflexivity. }
  next a2. destruct (a2 =? SSL_SUCCESS) eqn:Q2; cbn [negb].
  2:{ intros [= <- <- _]. exists (WolfStart true 0 0 a2 0 0 0 0 0). rewrite Nw. cbn [ws_ctx_new ws_cert set_x_wolf x_wolf negb]. rewrite Q2. reflexivity. }
  next a3. destruct (a3 =? SSL_SUCCESS) eqn:Q3; cbn [negb].
  2:{ intros [= <- <- _]. exists (WolfStart true 0 0 a2 a3 0 0 0 0). rewrite Nw. cbn [ws_ctx_new ws_cert ws_key set_x_wolf x_wolf negb]. rewrite Q2, Q3. reflexivity. }
  next a4. destruct (a4 =? 0) eqn:Q4; cbn [negb].
  2:{ intros [= <- <- _]. exists (WolfStart true 0 0 a2 a3 a4 0 0 0). rewrite Nw. cbn [ws_ctx_new ws_cert ws_key ws_rng set_x_wolf x_wolf negb]. rewrite Q2, Q3, Q4. reflexivity. }
  next a5. destruct (a5 =? SSL_SUCCESS) eqn:Q5; cbn [negb].
  2:{ intros [= <- <- _]. exists (WolfStart true 0 0 a2 a3 a4 a5 0 0). rewrite Nw. cbn [ws_ctx_new ws_cert ws_key ws_rng ws_cipher set_x_wolf x_wolf negb]. rewrite Q2, Q3, Q4, Q5. reflexivity. }
  next a6. destruct (a6 =? SSL_SUCCESS) eqn:Q6; cbn [negb].
  2:{ intros [= <- <- _]. exists (WolfStart true 0 0 a2 a3 a4 a5 a6 0). rewrite Nw. cbn [ws_ctx_new ws_cert ws_key ws_rng ws_cipher ws_groups set_x_wolf x_wolf negb]. rewrite Q2, Q3, Q4, Q5, Q6. reflexivity. }
  intros H. apply common_refines in H; [|exact Ty]. destruct H as (r & H). exists (WolfStart true 0 0 a2 a3 a4 a5 a6 r). rewrite Nw. cbn [ws_ctx_new ws_cert ws_key ws_rng ws_cipher ws_groups set_x_wolf x_wolf negb]. rewrite Q2, Q3, Q4, Q5, Q6. cbn [negb]. apply H.
Qed.
Print Assumptions C43_server_refines.

(** Only the four AEAD suites are ever asked for, and when a client and a server of
    the same connection type start, the server takes every suite the client offers;
    the key share of a post-quantum client is one the server takes. *)
Lemma in_followed plan l rc c : followed plan l rc -> In c (map fst l) -> In c plan.
Proof.
  intros [(_ & <- & _)|(b & c' & a & r & -> & -> & _)]; [auto|]. rewrite map_app. cbn [map fst]. rewrite !in_app_iff. cbn [In]. tauto.
Qed.
Lemma ciphers_client answer f rc x' l s : typed (f_ctx f) -> start answer f [] = ((rc, x'), l) -> In (CipherList s) (map fst l) ->
  s = colons (client_suites (x_type (f_ctx f) =? HE_CONNECTION_TYPE_STREAM) (x_chacha (f_ctx f))).
Proof.
  intros Ty H I. pose proof (C43_client Ty H) as C. cbv zeta in C.
  destruct (negb (cb_outside _)); [destruct C as [_ ->]; destruct I|]. destruct (negb (x_ca _)); [destruct C as [_ ->]; destruct I|].
  pose proof (in_followed C I) as P. unfold client_calls, common_calls in P.
  destruct (x_type (f_ctx f) =? HE_CONNECTION_TYPE_STREAM); cbn [app In] in P;
    repeat match goal with D : _ \/ _ |- _ => destruct D as [D|D] end; try discriminate P; try contradiction; now injection P as <-.
Qed.
Lemma ciphers_server answer f rc x' l s : typed (f_ctx f) -> start_server answer f [] = ((rc, x'), l) -> In (CipherList s) (map fst l) ->
  s = colons (server_suites (x_type (f_ctx f) =? HE_CONNECTION_TYPE_STREAM)).
Proof.
  intros Ty H I. pose proof (C43_server Ty H) as C. cbv zeta in C.
  destruct (negb (cb_outside _)); [destruct C as [_ ->]; destruct I|]. destruct (negb (x_cert_key _)); [destruct C as [_ ->]; destruct I|].
  destruct (negb (_ || _)); [destruct C as [_ ->]; destruct I|].
  pose proof (in_followed C I) as P. unfold server_calls, common_calls in P.
  destruct (x_type (f_ctx f) =? HE_CONNECTION_TYPE_STREAM); cbn [app In] in P;
    repeat match goal with D : _ \/ _ |- _ => destruct D as [D|D] end; try discriminate P; try contradiction; now injection P as <-.
Qed.
Definition aead : list string := ["TLS13-CHACHA20-POLY1305-SHA256"; "TLS13-AES256-GCM-SHA384"; "ECDHE-RSA-CHACHA20-POLY1305"; "ECDHE-RSA-AES256-GCM-SHA384"]%string.
Definition covers (l : list string) (n : string) : bool := existsb (String.eqb n) l.
Lemma covers_incl a b : forallb (covers b) a = true -> incl a b.
Proof.
  intros H n I. rewrite forallb_forall in H. specialize (H n I). apply existsb_exists in H as (m & Im & Q). apply String.eqb_eq in Q. now subst m.
Qed.
Theorem C43_compatible : forall answer f rc x l s answer' f' rc' x' l' s', typed (f_ctx f) -> x_type (f_ctx f') = x_type (f_ctx f) ->
  start answer f [] = ((rc, x), l) -> start_server answer' f' [] = ((rc', x'), l') ->
  In (CipherList s) (map fst l) -> In (CipherList s') (map fst l') ->
  suites_of s <> [] /\ incl (suites_of s) (suites_of s') /\ incl (suites_of s') aead.
Proof.
  intros answer f rc x l s answer' f' rc' x' l' s' Ty Eq H H' I I'.
  rewrite (ciphers_client Ty H I). assert (typed (f_ctx f')) as Ty' by (unfold typed in *; now rewrite Eq). rewrite (ciphers_server Ty' H' I'), Eq.
  destruct (x_type (f_ctx f) =? HE_CONNECTION_TYPE_STREAM), (x_chacha (f_ctx f)); (split; [discriminate|]); split; apply covers_incl; vm_compute; reflexivity.
Qed.
Print Assumptions C43_compatible.
(** A server that started has told wolfSSL to take the groups, among them the one
    he_conn_client_connect makes a share for. *)
Theorem C43_groups : forall answer f x' l, typed (f_ctx f) -> start_server answer f [] = ((HE_SUCCESS, x'), l) ->
  exists gs, In (Groups gs, SSL_SUCCESS) l /\ In P521_ML_KEM_1024 gs /\ In SECP256R1 gs /\ In X25519 gs.
Proof.
  intros answer f x' l Ty H. pose proof (C43_server Ty H) as C. cbv zeta in C.
  destruct (negb (cb_outside _)); [destruct C as [C _]; discriminate C|]. destruct (negb (x_cert_key _)); [destruct C as [C _]; discriminate C|].
  destruct (negb (_ || _)); [destruct C as [C _]; discriminate C|].
  destruct C as [(_ & M & A)|(b & c & a & r & _ & _ & _ & N & Er)].
  2:{ destruct c; cbn in Er; try discriminate Er. repeat match type of Er with context [if ?b then _ else _] => destruct b end; discriminate Er. }
  exists server_groups. split; [|cbn; tauto].
  assert (In (Groups server_groups) (map fst l)) as I by (rewrite M; unfold server_calls; cbn [app In]; tauto).
  apply in_map_iff in I as ([c a] & Q & I). cbn [fst] in Q. subst c. unfold all_granted in A. rewrite Forall_forall in A. specialize (A _ I). cbn in A. now subst a.
Qed.
Print Assumptions C43_groups.
(** The connection type of a context made by the API is one of the two. *)
Theorem C43_typed : forall ops, typed (ctx_run ctx_new ops).
Proof.
  assert (forall ws x, x_type (snd (ctx_start_common ws x)) = x_type x) as Cm by (intros ws x; unfold ctx_start_common; cbv zeta; destruct (_ && _); reflexivity).
  assert (forall ws x, x_type (ctx_new_wolf ws x) = x_type x) as Nw by (intros ws x; unfold ctx_new_wolf; destruct (_ || _); reflexivity).
  assert (forall ops x, typed x -> typed (ctx_run x ops)) as H; [|intros ops; apply H; now left].
  induction ops as [|o ops IH]; intros x Ty; [exact Ty|]. cbn [ctx_run]. apply IH.
  assert (x_type (snd (ctx_step x o)) = x_type x \/ typed (snd (ctx_step x o))) as [Q|Q]; [|unfold typed in *; now rewrite Q|exact Q].
  destruct o; cbn [ctx_step]; try (left; reflexivity).
  all: try (left; unfold ctx_set_min, ctx_set_max, ctx_set_ca; cbv zeta; match goal with |- context [if ?b then _ else _] => destruct b end; reflexivity).
  all: try (right; unfold ctx_set_type; match goal with |- context [if ?b then _ else _] => destruct b eqn:Q end; [exact Ty|]; unfold typed; cbn [snd x_type]; lia).
  all: try (left; unfold ctx_start, ctx_start_server; repeat (match goal with |- context [if ?b then _ else _] => destruct b end; cbn [snd]; rewrite ?Cm, ?Nw; try reflexivity); fail).
Qed.
Print Assumptions C43_typed.

(** Refuted: a datagram server also sets a minimum version. *)
Definition accepting : calls -> wolf_call -> Z := fun _ c => match c with InitRng => 0 | _ => 1 end.
Definition cbs_all : cbs := Cbs true true true true true true true true true true true true true.
Definition full_of (ty : Z) (chacha : bool) : full :=
  Full (Ctx (zeros 51) chacha true true ty cbs_all false 0 false false false 0 0 0 0 0 0) [80; 69; 77] [99] [107].
Theorem C43_server_minimum_refuted : exists answer f x' l, x_type (f_ctx f) = HE_CONNECTION_TYPE_DATAGRAM /\
  start_server answer f [] = ((HE_SUCCESS, x'), l) /\ ~ In MinVersionDtls12 (map fst l).
Proof.
  exists accepting, (full_of HE_CONNECTION_TYPE_DATAGRAM false). eexists _, _. split; [reflexivity|]. split; [vm_compute; reflexivity|].
  cbn. intros H. repeat match goal with D : _ \/ _ |- _ => destruct D as [D|D] end; discriminate || contradiction.
Qed.
Print Assumptions C43_server_minimum_refuted.
(** Refuted: he_ssl_ctx_set_use_chacha20 has an effect on a server. *)
Theorem C43_server_chacha_refuted : forall answer ty, typed (f_ctx (full_of ty true)) ->
  snd (start_server answer (full_of ty true) []) = snd (start_server answer (full_of ty false) []) /\
  fst (fst (start_server answer (full_of ty true) [])) = fst (fst (start_server answer (full_of ty false) [])).
Proof.
  intros answer ty [Ty|Ty]; cbn in Ty; subst ty; unfold start_server, full_of, new_ctx, start_common, rbind, wolf, rret; cbn;
    repeat (match goal with |- context [negb (?a =? ?b)] => destruct (a =? b) end; cbn); auto.
Qed.
Print Assumptions C43_server_chacha_refuted.

(** ** Examples *)
Example C43_example_client : exists x', start accepting (full_of HE_CONNECTION_TYPE_DATAGRAM true) [] = ((HE_SUCCESS, x'),
  [(CtxNew DTLS_CLIENT, 1); (LoadVerify [80; 69; 77], 1); (MinVersionDtls12, 1); (CipherList "TLS13-CHACHA20-POLY1305-SHA256:ECDHE-RSA-CHACHA20-POLY1305"%string, 1);
   (IoRecv IO_DTLS, 1); (IoSend IO_DTLS, 1); (UseSecureRenegotiation, 1)]) /\ typed (f_ctx (full_of HE_CONNECTION_TYPE_DATAGRAM true)).
Proof. eexists. split; [vm_compute; reflexivity|now left]. Qed.
Example C43_example_refused : exists x', start (fun _ c => match c with LoadVerify _ => ASN_INPUT_E | _ => 1 end) (full_of HE_CONNECTION_TYPE_STREAM false) [] =
  ((HE_ERR_SSL_ASN_INPUT, x'), [(CtxNew TLS13_CLIENT, 1); (LoadVerify [80; 69; 77], ASN_INPUT_E)]).
Proof. eexists. vm_compute; reflexivity. Qed.
Example C43_example_server : exists x' l, start_server accepting (full_of HE_CONNECTION_TYPE_STREAM false) [] = ((HE_SUCCESS, x'), l) /\
  In (CipherList "TLS13-AES256-GCM-SHA384:TLS13-CHACHA20-POLY1305-SHA256"%string) (map fst l) /\
  suites_of "TLS13-AES256-GCM-SHA384:TLS13-CHACHA20-POLY1305-SHA256" = [TLS13_AES; TLS13_CHACHA].
Proof. eexists _, _. split; [vm_compute; reflexivity|]. split; [cbn; tauto|vm_compute; reflexivity]. Qed.
