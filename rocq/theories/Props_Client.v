(** C44: the client interface (src/he/client.c). *)
From Verif Require Import Base Codes Ctx Config Mss Frag Wire WireProofs ConnState Conn ConnSpec HistSpec MsgSpec CallSpec.
From Verif Require Import ConnSteps ConnWp ConnWpApi Scenario Reaction Seq SeqApi Props_Ctx Props_Data Props_Connect Client.
Unset Strict Implicit.

(** ** Histories of a client: calls of he_client_*, of he_conn_* on its connection
    and of he_ssl_ctx_* on its context. *)
Inductive client_op : Type := KConn (o : op) | KCtx (o : ctx_op) | KConnect (ws : wolf_start) | KDisconnect.
Definition client_step (E : env) (k : client) (o : client_op) : option (Z * client) :=
  match o with
  | KConn o => match api E (ret tt) o (k_world k) with
               | Done rc w => Some (rc, Client (k_ctx k) w (k_in k) (k_out k))
               | Stuck _ _ => None
               end
  | KCtx o => let (rc, x) := ctx_step (k_ctx k) o in Some (rc, Client x (k_world k) (k_in k) (k_out k))
  | KConnect ws => he_client_connect E ws k
  | KDisconnect => he_client_disconnect E k
  end.
Fixpoint client_run (E : env) (k : client) (l : list client_op) : option client :=
  match l with
  | [] => Some k
  | o :: t => match client_step E k o with Some (_, k') => client_run E k' t | None => None end
  end.
Definition client_new (i p : chain) : client := Client ctx_new world_new i p.

(** What the connection of a client goes through is what a connection used directly
    can go through: everything proved of [reached] holds of clients. *)
Theorem C44_client_is_connection : forall E i p l k, client_run E (client_new i p) l = Some k ->
  reached E (k_world k) /\ k_in k = i /\ k_out k = p /\ exists xs, k_ctx k = ctx_run ctx_new xs.
Proof.
  intros E i p l k. assert (forall k0, (reached E (k_world k0) /\ k_in k0 = i /\ k_out k0 = p /\ exists xs, k_ctx k0 = ctx_run ctx_new xs) -> client_run E k0 l = Some k ->
    reached E (k_world k) /\ k_in k = i /\ k_out k = p /\ exists xs, k_ctx k = ctx_run ctx_new xs) as H.
  2:{ apply H. split; [exists []; reflexivity|]. split; [reflexivity|]. split; [reflexivity|]. now exists []. }
  assert (forall a b x, ctx_run x (a ++ b) = ctx_run (ctx_run x a) b) as Happ by (induction a as [|o a IH]; intros b x; cbn [app ctx_run]; auto).
  induction l as [|o l IH]; intros k0 K; cbn [client_run]; [now intros [= <-]|]. destruct (client_step E k0 o) as [[rc k1]|] eqn:S1; [|discriminate]. apply IH. clear IH.
  destruct K as (R & Hi & Hp & xs & Hx). assert (forall o', exists ys, snd (ctx_step (k_ctx k0) o') = ctx_run ctx_new ys) as Cx.
  { intros o'. exists (xs ++ [o']). now rewrite Happ, Hx. }
  destruct o; cbn [client_step] in S1.
  - destruct (api E (ret tt) o (k_world k0)) as [rc1 w1|] eqn:C; [|discriminate S1]. injection S1 as _ <-. cbn [k_world k_in k_out k_ctx]. split; [exact (reached_call R C)|]. eauto.
  - specialize (Cx o). destruct (ctx_step (k_ctx k0) o) as [rc1 x1]. injection S1 as _ <-. cbn [k_world k_in k_out k_ctx]. auto.
  - unfold he_client_connect in S1. specialize (Cx (XStart ws)). cbn [ctx_step] in Cx. destruct (ctx_start ws (k_ctx k0)) as [res x1]. cbn [snd] in Cx. destruct (negb (res =? HE_SUCCESS)).
    + injection S1 as _ <-. cbn [k_world k_in k_out k_ctx]. auto.
    + destruct (api E (ret tt) _ (k_world k0)) as [rc1 w1|] eqn:C; [|discriminate S1]. injection S1 as _ <-. cbn [k_world k_in k_out k_ctx]. split; [exact (reached_call R C)|]. auto.
  - unfold he_client_disconnect in S1. change (negb (he_ssl_ctx_stop (k_ctx k0) =? HE_SUCCESS)) with false in S1. cbv iota zeta in S1. destruct (api E (ret tt) _ (k_world k0)) as [rc1 w1|] eqn:C; [|discriminate S1]. injection S1 as _ <-. cbn [k_world k_in k_out k_ctx]. split; [exact (reached_call R C)|]. eauto.
Qed.
Print Assumptions C44_client_is_connection.

(** What he_ssl_ctx_start needs. *)
Definition ctx_missing (x : ctx) : option Z :=
  if negb (cb_outside (x_cbs x)) then Some HE_ERR_CONF_OUTSIDE_WRITE_CB_NOT_SET
  else if negb (x_ca x) then Some HE_ERR_CONF_CA_NOT_SET else None.

(** he_client_is_config_valid says what is missing, for the context as it is. *)
Theorem C44_is_valid : forall E k, reached E (k_world k) ->
  he_client_is_config_valid k = Some
    match ctx_missing (k_ctx k) with
    | Some code => code
    | None => match client_missing (k_ctx k) (w_c (k_world k)) with Some code => code | None => HE_SUCCESS end
    end.
Proof.
  intros E k R. unfold he_client_is_config_valid, ctx_missing, ctx_valid_client, ctx_valid_common. destruct (cb_outside _); cbn [negb]; [|reflexivity]. change (HE_SUCCESS =? HE_SUCCESS) with true. cbn [negb].
  destruct (x_ca _); cbn [negb]; [|reflexivity]. change (HE_SUCCESS =? HE_SUCCESS) with true. cbn [negb].
  assert (exists r, is_valid_client (k_ctx k) (w_c (k_world k)) = Val r) as [r Er].
  { pose proof (reached_cok R) as C. unfold is_valid_client. destruct (is_empty_ok (ok_username C)) as [a ->]. destruct (is_empty_ok (ok_password C)) as [b ->]. cbn [rbind]. eauto. }
  rewrite Er. pose proof (valid_client Er) as V. destruct (client_missing _ _) as [code|]; [destruct V as [-> _]; reflexivity|now rewrite V].
Qed.
Print Assumptions C44_is_valid.

(** he_client_connect starts the context and connects; exactly one of four things
    happens. *)
Definition start_failed (ws : wolf_start) (x : ctx) (rc : Z) : Prop := ctx_missing x = None /\ fst (ctx_start ws x) = rc /\ rc <> HE_SUCCESS.
Theorem C44_connect : forall E ws k rc k', reached E (k_world k) -> he_client_connect E ws k = Some (rc, k') ->
  k_in k' = k_in k /\ k_out k' = k_out k /\
  let o := OClientConnect (k_ctx k') (k_in k) (k_out k) in
  match ctx_missing (k_ctx k) with
  | Some code => rc = code /\ k' = k
  | None =>
    (start_failed ws (k_ctx k) rc /\ k_world k' = k_world k) \/
    (x_wolf (k_ctx k') = true /\ ctx_max (k_ctx k') = (1, 2) /\ call E o (k_world k) rc (k_world k') /\
     match client_missing (k_ctx k') (w_c (k_world k)) with
     | Some code => refused o code (k_world k) rc (k_world k')
     | None => went_on (k_world k) (k_world k')
     end)
  end.
Proof.
  intros E ws k rc k' R. unfold he_client_connect. destruct (ctx_start ws (k_ctx k)) as [res x] eqn:S1.
  pose proof (@C26_start_client _ _ _ _ S1) as (S2 & S3 & S4).
  assert (match ctx_missing (k_ctx k) with Some code => res = code /\ x = k_ctx k /\ code <> HE_SUCCESS | None => True end) as M.
  { unfold ctx_missing. destruct (cb_outside (x_cbs (k_ctx k))); cbn [negb]; [|destruct S3; auto; repeat split; auto; discriminate]. destruct (x_ca (k_ctx k)); cbn [negb]; [exact I|]. destruct S4; auto. repeat split; auto; discriminate. }
  destruct (Z.eqb_spec res HE_SUCCESS) as [Q|Q]; cbn [negb].
  - destruct (api E (ret tt) _ (k_world k)) as [rc1 w1|] eqn:C; [|discriminate]. intros H.
    assert (rc = rc1 /\ k' = Client x w1 (k_in k) (k_out k)) as [-> ->].
    { injection H as <- <-. split; [|reflexivity]. destruct (Z.eqb_spec rc1 HE_SUCCESS) as [->|]; reflexivity. }
    cbn [k_ctx k_world k_in k_out]. split; [reflexivity|]. split; [reflexivity|]. cbv zeta. destruct (ctx_missing (k_ctx k)) as [code|]; [destruct M as (-> & _ & N); contradiction|]. right.
    split; [apply S2; exact Q|]. split; [apply (@C36_start_resets (k_ctx k) (XStart ws) res x eq_refl S1 Q)|]. split; [exact C|]. exact (C26_client_connect C).
  - intros [= <- <-]. cbn [k_ctx k_world k_in k_out]. split; [reflexivity|]. split; [reflexivity|]. cbv zeta. destruct (ctx_missing (k_ctx k)) as [code|] eqn:Cm.
    + destruct M as (-> & -> & _). split; [reflexivity|]. now destruct k.
    + left. split; [|reflexivity]. unfold start_failed. rewrite S1. auto.
Qed.
Print Assumptions C44_connect.

(** As long as the host has not chosen a wire version, or the context's maximum is
    1.2, he_client_connect refuses what he_client_is_config_valid reports, and
    nothing else for reasons of configuration. *)
Theorem C44_agree_partial : forall E ws k rc k' v, reached E (k_world k) -> he_client_connect E ws k = Some (rc, k') ->
  he_client_is_config_valid k = Some v -> fst (ctx_start ws (k_ctx k)) = HE_SUCCESS ->
  c_vmaj (w_c (k_world k)) = 0 \/ ctx_max (k_ctx k) = (1, 2) ->
  (v <> HE_SUCCESS -> rc = v /\ w_c (k_world k') = w_c (k_world k)) /\
  (v = HE_SUCCESS -> went_on (k_world k) (k_world k')).
Proof.
  intros E ws k rc k' v R C V St Ve. pose proof (C44_connect R C) as (_ & _ & K). rewrite (C44_is_valid R) in V. injection V as V. cbv zeta in K.
  destruct (ctx_missing (k_ctx k)) as [code|] eqn:Cm.
  { destruct K as [-> ->]. exfalso. destruct (ctx_start ws (k_ctx k)) as [res x] eqn:S1. cbn [fst] in St. pose proof (@C26_start_client _ _ _ _ S1) as (S2 & _). destruct (S2 St) as (A & B & _).
    unfold ctx_missing in Cm. rewrite A, B in Cm. discriminate Cm. }
  destruct K as [((_ & F & N) & _)|(_ & Mx & _ & K)]; [congruence|].
  assert (client_missing (k_ctx k') (w_c (k_world k)) = client_missing (k_ctx k) (w_c (k_world k))) as Em.
  { unfold client_missing, version_asked. destruct Ve as [-> | ->]; [reflexivity|]. now rewrite Mx. }
  rewrite Em in K. destruct (client_missing (k_ctx k) (w_c (k_world k))) as [code|].
  - subst v. destruct K as (-> & N & Hc & _). split; [auto|intros Q; contradiction].
  - subst v. split; [intros Q; now destruct Q|auto].
Qed.
Print Assumptions C44_agree_partial.
Theorem C44_disconnect : forall E k rc k', he_client_disconnect E k = Some (rc, k') ->
  call E ODisconnect (k_world k) rc (k_world k') /\ k_ctx k' = k_ctx k /\ k_in k' = k_in k /\ k_out k' = k_out k.
Proof.
  intros E k rc k'. unfold he_client_disconnect, call. change (negb (he_ssl_ctx_stop (k_ctx k) =? HE_SUCCESS)) with false. cbv iota zeta. destruct (api E (ret tt) ODisconnect (k_world k)); [|discriminate]. intros [= <- <-]. auto.
Qed.
Print Assumptions C44_disconnect.

(** ** Where they disagree *)
Definition kctx (l : list ctx_op) : list client_op := map KCtx (XSetCbs all_cbs :: XSetCa 1000 :: l).
Definition klogin : list client_op := map KConn client_setup.
Definition client_at (l : list client_op) : client :=
  match client_run plain_env (client_new [] []) l with Some k => k | None => client_new [] [] end.

(** he_client_is_config_valid rejects a configuration with which he_client_connect
    succeeds: the context's maximum version is only set by he_ssl_ctx_start, so before
    the first connect the only version a host can name is rejected. *)
Theorem C44_valid_too_strict_refuted : exists l k k',
  client_run plain_env (client_new [] []) l = Some k /\
  he_client_is_config_valid k = Some HE_ERR_INCORRECT_PROTOCOL_VERSION /\
  he_client_connect plain_env ws_ok k = Some (HE_SUCCESS, k').
Proof.
  exists (kctx [] ++ klogin ++ [KConn (OSetVersion 1 2)]).
  exists (client_at (kctx [] ++ klogin ++ [KConn (OSetVersion 1 2)])).
  exists (client_at (kctx [] ++ klogin ++ [KConn (OSetVersion 1 2); KConnect ws_ok])).
  split; [vm_compute; reflexivity|]. split; vm_compute; reflexivity.
Qed.
Print Assumptions C44_valid_too_strict_refuted.

(** And accepts one with which he_client_connect fails for its configuration: starting
    the context sets the maximum version back to 1.2. *)
Theorem C44_valid_too_lax_refuted : exists l k k',
  client_run plain_env (client_new [] []) l = Some k /\
  he_client_is_config_valid k = Some HE_SUCCESS /\
  he_client_connect plain_env ws_ok k = Some (HE_ERR_INCORRECT_PROTOCOL_VERSION, k').
Proof.
  exists (kctx [XSetMax 1 1] ++ klogin ++ [KConn (OSetVersion 1 1)]).
  exists (client_at (kctx [XSetMax 1 1] ++ klogin ++ [KConn (OSetVersion 1 1)])).
  exists (client_at (kctx [XSetMax 1 1] ++ klogin ++ [KConn (OSetVersion 1 1); KConnect ws_ok])).
  split; [vm_compute; reflexivity|]. split; vm_compute; reflexivity.
Qed.
Print Assumptions C44_valid_too_lax_refuted.

(** ** Examples *)
Example C44_run : exists k, client_run plain_env (client_new [] []) (kctx [] ++ klogin ++ [KConnect ws_ok; KConn (OOutside (dgram 0 [])); KDisconnect]) = Some k /\
  c_state (w_c (k_world k)) = HE_STATE_DISCONNECTED.
Proof. eexists. split; vm_compute; reflexivity. Qed.
Example C44_agree_case : exists k k',
  client_run plain_env (client_new [] []) (kctx [] ++ klogin) = Some k /\
  reached plain_env (k_world k) /\ he_client_is_config_valid k = Some HE_SUCCESS /\
  c_vmaj (w_c (k_world k)) = 0 /\ fst (ctx_start ws_ok (k_ctx k)) = HE_SUCCESS /\
  he_client_connect plain_env ws_ok k = Some (HE_SUCCESS, k').
Proof.
  exists (client_at (kctx [] ++ klogin)), (client_at (kctx [] ++ klogin ++ [KConnect ws_ok])).
  split; [vm_compute; reflexivity|]. split; [eapply C44_client_is_connection with (l := kctx [] ++ klogin); vm_compute; reflexivity|].
  repeat apply conj; vm_compute; reflexivity.
Qed.
(** A client without credentials is refused by both. *)
Example C44_nologin : exists k k',
  client_run plain_env (client_new [] []) (kctx []) = Some k /\
  he_client_is_config_valid k = Some HE_ERR_CONF_USERNAME_NOT_SET /\
  he_client_connect plain_env ws_ok k = Some (HE_ERR_CONF_USERNAME_NOT_SET, k').
Proof.
  exists (client_at (kctx [])), (client_at (kctx [] ++ [KConnect ws_ok])).
  repeat apply conj; vm_compute; reflexivity.
Qed.
