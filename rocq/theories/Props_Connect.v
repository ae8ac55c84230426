(** C26: connecting needs a complete configuration. *)
From Verif Require Import Base Codes Ctx Config Mss MssSpec Frag FragSpec
  Wire WireSpec ConnState Conn ConnSpec CallSpec MsgSpec ConnSteps ConnWpApi Frame Seq SeqApi SeqWire
  Scenario Props_Data Props_Ctx Props_Wire.
Unset Strict Implicit.

(** ** Specification *)
(** A token or a buffer has been set. *)
Definition buffer_set (c : conn) : bool := negb (c_auth_len c =? 0).
Definition no_text (f : bytes) : bool := match cstr f with [] => true | _ => false end.
(** The version asked for with he_conn_set_protocol_version; 0: none was. *)
Definition version_asked (c : conn) : option (Z * Z) := if c_vmaj c =? 0 then None else Some (c_vmaj c, c_vmin c).
Definition same_version (v v' : Z * Z) : bool := (fst v =? fst v') && (snd v =? snd v').
(** What the header file says he_conn_client_connect checks: the first thing that
    is missing or wrong. *)
Definition client_missing (x : ctx) (c : conn) : option Z :=
  if negb (buffer_set c) && no_text (c_username c) then Some HE_ERR_CONF_USERNAME_NOT_SET
  else if negb (buffer_set c) && no_text (c_password c) then Some HE_ERR_CONF_PASSWORD_NOT_SET
  else if buffer_set c && negb (no_text (c_username c)) then Some HE_ERR_CONF_CONFLICTING_AUTH_METHODS
  else if c_mtu c =? 0 then Some HE_ERR_CONF_MTU_NOT_SET
  else match version_asked c with
       | Some v => if same_version v (ctx_max x) then None else Some HE_ERR_INCORRECT_PROTOCOL_VERSION
       | None => None
       end.
Definition admitted (x : ctx) (v : Z * Z) : Prop := ver_le (ctx_min x) v /\ ver_le v (ctx_max x).
(** ... and he_conn_server_connect; here [None] allows going on. *)
Definition server_missing (x : ctx) (c : conn) (r : option Z) : Prop :=
  c_mtu c = 0 /\ r = Some HE_ERR_CONF_MTU_NOT_SET \/
  c_mtu c <> 0 /\
  match version_asked c with
  | Some v => admitted x v /\ r = None \/ ~ admitted x v /\ r = Some HE_ERR_INCORRECT_PROTOCOL_VERSION
  | None => r = None
  end.
(** A call did nothing at all but return [code]. *)
Definition refused (o : op) (code : Z) (w : world) (rc : Z) (w' : world) : Prop :=
  rc = code /\ rc <> HE_SUCCESS /\ w_c w' = w_c w /\
  w_t w' = (c_state (w_c w), ERet o rc) :: (c_state (w_c w), ECall o) :: w_t w.
(** The call got as far as allocating, which is the next thing it does. *)
Definition went_on (w w' : world) : Prop := exists r l, during allocs w w' (r :: l).

(** ** Proofs *)
Lemma empty_text f b : config_is_empty f = Val b -> b = no_text f.
Proof.
  unfold config_is_empty, no_text, ld8. destruct f as [|x f].
  - cbn. discriminate.
  - rewrite len_cons. pose proof (len_nonneg f). destruct (Z.ltb_spec 0 (1 + len f)); [|lia]. cbn. intros [= <-]. now destruct (x =? 0).
Qed.
Lemma valid_client x c r : is_valid_client x c = Val r ->
  match client_missing x c with Some code => r = code /\ code <> HE_SUCCESS | None => r = HE_SUCCESS end.
Proof.
  unfold is_valid_client. destruct (config_is_empty (c_username c)) as [ue|] eqn:U; [|discriminate]. destruct (config_is_empty (c_password c)) as [pe|] eqn:P; [|discriminate].
  cbn [rbind]. rewrite (empty_text U), (empty_text P). intros [= <-]. unfold client_missing, buffer_set, version_asked, same_version, ctx_max, is_latest_version. rewrite negb_involutive.
  case_if; [split; [reflexivity|discriminate]|]. case_if; [split; [reflexivity|discriminate]|]. case_if; [split; [reflexivity|discriminate]|]. case_if; [split; [reflexivity|discriminate]|].
  destruct (c_vmaj c =? 0); [reflexivity|]. cbn [negb andb fst snd]. destruct ((c_vmaj c =? x_max_major x) && (c_vmin c =? x_max_minor x)); [reflexivity|]. split; [reflexivity|discriminate].
Qed.
Lemma valid_server x c : exists r, server_missing x c r /\
  match r with Some code => is_valid_server x c = code /\ code <> HE_SUCCESS | None => is_valid_server x c = HE_SUCCESS end.
Proof.
  unfold is_valid_server, server_missing. destruct (Z.eqb_spec (c_mtu c) 0) as [M|M].
  - exists (Some HE_ERR_CONF_MTU_NOT_SET). split; [auto|]. split; [reflexivity|discriminate].
  - unfold version_asked. destruct (Z.eqb_spec (c_vmaj c) 0) as [V|V]; cbn [negb andb].
    + exists None. auto.
    + pose proof (C18_admission x (c_vmaj c) (c_vmin c)) as A. destruct (is_supported_version x (c_vmaj c) (c_vmin c)); cbn [negb].
      * exists None. split; [right; split; [exact M|]; left; split; [now apply A|reflexivity]|reflexivity].
      * exists (Some HE_ERR_INCORRECT_PROTOCOL_VERSION). split; [right; split; [exact M|]; right; split; [intros H; apply A in H; discriminate|reflexivity]|]. split; [reflexivity|discriminate].
Qed.

Section G.
Variable E : env.
Notation hk := (@ret unit tt).
Variable X : list Z.
Definition IA (w : world) : Prop := exists l, collect allocs (w_t w) = X ++ l.
Lemma IA_push e w : IA w -> IA (push e w).
Proof. intros [l H]. exists (l ++ allocs (c_state (w_c w)) e). cbn [push w_t collect]. now rewrite H, app_assoc. Qed.
Lemma IA_conn f w : IA w -> IA (with_c f w).
Proof. intros H. exact H. Qed.
End G.
Definition next_alloc (E : env) (w : world) : Z := e_ask E (w_t w) QAlloc.
Lemma connect_went E x i p w rc w' : internal_connect E (ret tt) x i p w = Done rc w' -> exists r l, collect allocs (w_t w') = (collect allocs (w_t w) ++ [r]) ++ l.
Proof.
  intros H. pose (f := configure_fields x i p). pose (r := next_alloc E (with_c f w)). pose (v := push (EAsk QAlloc r) (with_c f w)).
  pose (k := let! a2 := ask E QAlloc in
             let t := table_create (negb (r =? 0)) (negb (a2 =? 0)) (Z.max 0 (Z.min MAX_FRAGMENT_ENTRIES (x_max_frag x))) in
             upd (set_frag_tbl t) ;;; ret (match t with None => HE_ERR_NO_MEMORY | Some _ => HE_SUCCESS end)).
  assert (configure E x i p w = k v) as Ec by reflexivity.
  unfold internal_connect in H. unfold bind at 1 in H. rewrite Ec in H. clear Ec.
  pose (I := IA (collect allocs (w_t w) ++ [r])).
  assert (I v) as Iv. { exists []. unfold v. cbn [push w_t collect with_c allocs]. now rewrite app_nil_r. }
  assert (forall e u, I u -> I (push e u)) as Hp by (intros; now apply IA_push).
  assert (forall g u, I u -> I (with_c g u)) as Hc by (intros g u Hu; exact Hu).
  assert (forall sz, keeps I (fun _ => True) (io_read sz)) as Hr by (intros sz; apply keeps_io_read; auto).
  assert (forall b, keeps I (fun _ => True) (io_write E (ret tt) b)) as Hw by (intros b; apply keeps_io_write; auto; apply keeps_ret).
  assert (keeps I (fun _ => True) k) as Kk.
  { unfold k. apply keeps_bind; [apply keeps_ask; [auto|reflexivity]|]. intros a. cbv zeta. apply keeps_bind; [apply keeps_upd; auto|]. intros []. apply keeps_ret. }
  specialize (Kk v Iv). destruct (k v) as [res u|]; [|discriminate H].
  assert (forall e u, io_event e = false -> I u -> I (push e u)) as He by auto.
  assert (forall s, keeps I (fun _ => True) (change_conn_state E (ret tt) s)) as Hs by (intros; apply keeps_change_conn_state; intros; auto; apply keeps_ret).
  assert (keeps I (fun _ => True) (update_timeout E (ret tt))) as Ht by (apply keeps_update_timeout; intros; auto; apply keeps_ret).
  assert (I w') as Iw.
  { revert H. match goal with |- ?m u = _ -> _ => assert (keeps I (fun _ => True) m) as K end.
    { case_if; [apply keeps_ret|]. apply keeps_bind; [apply keeps_ask; [auto|reflexivity]|]. intros q. cbv zeta. apply keeps_bind; [apply keeps_upd; auto|]. intros []. case_if; [apply keeps_ret|].
      apply keeps_bind; [apply keeps_settings; auto|]. intros s. case_if; [apply keeps_ret|]. apply keeps_bind; [apply keeps_upd; auto|]. intros [].
      apply keeps_bind; [apply keeps_settings2; auto|]. intros s2. case_if; [apply keeps_ret|]. apply keeps_bind; [apply Hs|]. intros [].
      apply keeps_bind; [apply keeps_wolf_op'; intros; auto; apply keeps_ret|]. intros [[n err] d].
      repeat case_if; try apply keeps_ret; (apply keeps_bind; [apply Hs|intros _]); (apply keeps_bind; [apply Ht|intros _]); apply keeps_ret. }
    specialize (K u Kk). intros H. rewrite H in K. exact K. }
  destruct Iw as [l Hl]. now exists r, l.
Qed.
Lemma went_more w w1 w2 : went_on w w1 -> (exists l, collect allocs (w_t w2) = collect allocs (w_t w1) ++ l) -> went_on w w2.
Proof. intros (r & l & H) [l2 H2]. exists r, (l ++ l2). unfold during in *. rewrite H2, H. now rewrite <- app_assoc. Qed.

(** ** Theorems *)
(** he_conn_client_connect checks what the documentation lists and nothing else:
    if something is missing it returns the documented code and does nothing, else it
    goes on. *)
Theorem C26_client_connect : forall E x i p w rc w', call E (OClientConnect x i p) w rc w' ->
  match client_missing x (w_c w) with
  | Some code => refused (OClientConnect x i p) code w rc w'
  | None => went_on w w'
  end.
Proof.
  intros E x i p w rc w' C. destruct (call_body C) as (w1 & Bd & ->). change (client_connect E (ret tt) x i p (push (ECall (OClientConnect x i p)) w) = Done rc w1) in Bd.
  unfold client_connect in Bd. unfold bind at 1, get in Bd. change (w_c (push (ECall (OClientConnect x i p)) w)) with (w_c w) in Bd. unfold bind at 1 in Bd.
  destruct (is_valid_client x (w_c w)) as [r|] eqn:V; [|discriminate Bd]. unfold lift, ret at 1 in Bd. pose proof (valid_client V) as M.
  destruct (client_missing x (w_c w)) as [code|].
  - destruct M as [-> N]. destruct (Z.eqb_spec code HE_SUCCESS); [contradiction|]. cbn [negb] in Bd. apply Done_inv in Bd. destruct Bd as [<- <-]. exact (conj eq_refl (conj N (conj eq_refl eq_refl))).
  - subst r. change (negb (HE_SUCCESS =? HE_SUCCESS)) with false in Bd. cbv iota in Bd. unfold bind at 1, upd at 1 in Bd. destruct (connect_went Bd) as (r & l & Hl).
    exists r, l. unfold during. cbn [push w_t collect allocs]. rewrite app_nil_r, Hl. cbn [w_t push collect allocs]. now rewrite app_nil_r, <- app_assoc.
Qed.
Print Assumptions C26_client_connect.

Theorem C26_server_connect : forall E x i p w rc w', call E (OServerConnect x i p) w rc w' ->
  exists r, server_missing x (w_c w) r /\
  match r with
  | Some code => refused (OServerConnect x i p) code w rc w'
  | None => went_on w w'
  end.
Proof.
  intros E x i p w rc w' C. destruct (call_body C) as (w1 & Bd & ->). change (server_connect E (ret tt) x i p (push (ECall (OServerConnect x i p)) w) = Done rc w1) in Bd.
  unfold server_connect in Bd. unfold bind at 1, get in Bd. cbv beta zeta in Bd. change (w_c (push (ECall (OServerConnect x i p)) w)) with (w_c w) in Bd.
  destruct (valid_server x (w_c w)) as (r & M & V). exists r. split; [exact M|]. destruct r as [code|].
  - destruct V as [V N]. rewrite V in Bd. destruct (Z.eqb_spec code HE_SUCCESS); [contradiction|]. cbn [negb] in Bd. apply Done_inv in Bd. destruct Bd as [<- <-]. exact (conj eq_refl (conj N (conj eq_refl eq_refl))).
  - rewrite V in Bd. change (negb (HE_SUCCESS =? HE_SUCCESS)) with false in Bd. cbv iota in Bd. unfold bind at 1, upd at 1 in Bd. unfold bind at 1 in Bd.
    destruct (internal_connect _ _ _ _ _ _) as [res u|] eqn:Ic; [|discriminate Bd]. destruct (connect_went Ic) as (q & l & Hl). cbn [w_t push collect allocs] in Hl. rewrite app_nil_r in Hl.
    assert (went_on w u) as Wu by (exists q, l; unfold during; now rewrite Hl, <- app_assoc).
    apply (went_more Wu). cbn [push w_t collect allocs]. rewrite app_nil_r. destruct (negb (res =? HE_SUCCESS)).
    { apply Done_inv in Bd. destruct Bd as [_ <-]. exists []. now rewrite app_nil_r. }
    pose (I := IA (collect allocs (w_t u))).
    assert (forall e v, I v -> I (push e v)) as Hp by (intros; now apply IA_push).
    assert (forall g v, I v -> I (with_c g v)) as Hc by (intros g v Hv; exact Hv).
    revert Bd. match goal with |- ?m u = _ -> _ => assert (keeps I (fun _ => True) m) as K end.
    { apply keeps_bind; [apply keeps_generate_session_id; auto|]. intros [g1 g2]. case_if; [apply keeps_ret|]. apply keeps_bind; [apply keeps_upd; auto|]. intros []. apply keeps_ret. }
    specialize (K u ltac:(exists []; now rewrite app_nil_r)). intros Bd. rewrite Bd in K. exact K.
Qed.
Print Assumptions C26_server_connect.

(** Nothing is done but asking the allocator, wolfSSL and the like. *)
Definition shown (s : Z) (e : ev) : list ev := match e with ECall _ | ERet _ _ | EAsk _ _ => [] | _ => [e] end.
(** With a context that was not started both fail: nothing is sent, no callback is
    called, the state stays. *)
Theorem C26_not_started : forall E o x i p w rc w', o = OClientConnect x i p \/ o = OServerConnect x i p -> x_wolf x = false -> call E o w rc w' ->
  rc <> HE_SUCCESS /\ during shown w w' [] /\ c_state (w_c w') = c_state (w_c w).
Proof.
  intros E o x i p w rc w' Ho Hx C. destruct (call_body C) as (w1 & Bd & ->).
  pose (I := fun v : world => collect shown (w_t v) = collect shown (w_t w) /\ c_state (w_c v) = c_state (w_c w)).
  assert (forall q r v, I v -> I (push (EAsk q r) v)) as Ha by (intros q r v [P Q]; split; [cbn [push w_t collect shown]; now rewrite app_nil_r|exact Q]).
  assert (forall f v, (forall c, c_state (f c) = c_state c) -> I v -> I (with_c f v)) as Hc by (intros f v H [P Q]; split; [exact P|cbn [with_c w_c]; now rewrite H]).
  assert (I (push (ECall o) w)) as I0 by (split; [cbn [push w_t collect shown]; now rewrite app_nil_r|reflexivity]).
  assert (forall b v res u, I v -> internal_connect E (ret tt) x i p (with_c (set_is_server b) v) = Done res u -> res <> HE_SUCCESS /\ I u) as Hi.
  { intros b v res u Iv H. unfold internal_connect in H. unfold bind at 1 in H.
    assert (keeps I (fun _ => True) (configure E x i p)) as Kc.
    { unfold configure. apply keeps_bind; [apply keeps_upd; intros; apply Hc; [intros c; unfold configure_fields; case_if; reflexivity|assumption]|]. intros [].
      assert (keeps I (fun _ => True) (ask E QAlloc)) as Ka. { unfold ask. apply keeps_bind; [intros z; auto|]. intros t. cbv zeta. apply keeps_bind; [apply keeps_emit; auto|]. intros []. apply keeps_ret. }
      apply keeps_bind; [exact Ka|]. intros a1. apply keeps_bind; [exact Ka|]. intros a2. cbv zeta. apply keeps_bind; [apply keeps_upd; intros; now apply Hc|]. intros []. apply keeps_ret. }
    specialize (Kc (with_c (set_is_server b) v) ltac:(now apply Hc)). destruct (configure E x i p _) as [r1 v1|]; [|discriminate H].
    destruct (Z.eqb_spec r1 HE_SUCCESS) as [Er|Nr]; cbn [negb] in H.
    2: { apply Done_inv in H. destruct H as [<- <-]. split; [exact Nr|exact Kc]. }
    rewrite Hx in H. cbn [andb] in H. unfold bind at 1, ask, bind at 1, log in H. unfold bind at 1, emit in H. unfold ret at 1 in H. unfold bind at 1, upd at 1 in H. cbn [negb] in H.
    apply Done_inv in H. destruct H as [<- <-]. split; [discriminate|].
    apply (Hc (fun c => set_io (x_io x) (set_wolf_ctx false (set_wolf false c)))); [reflexivity|]. now apply Ha. }
  assert (rc <> HE_SUCCESS /\ I w1) as [N [P Q]].
  { destruct Ho as [-> | ->].
    - change (client_connect E (ret tt) x i p (push (ECall (OClientConnect x i p)) w) = Done rc w1) in Bd.
      unfold client_connect in Bd. unfold bind at 1, get in Bd. unfold bind at 1 in Bd. destruct (is_valid_client x _) as [r|]; [|discriminate Bd]. unfold lift, ret at 1 in Bd.
      destruct (Z.eqb_spec r HE_SUCCESS) as [Er|Nr]; cbn [negb] in Bd; [|apply Done_inv in Bd; destruct Bd as [<- <-]; split; [exact Nr|exact I0]].
      unfold bind at 1, upd at 1 in Bd. exact (@Hi false _ _ _ I0 Bd).
    - change (server_connect E (ret tt) x i p (push (ECall (OServerConnect x i p)) w) = Done rc w1) in Bd.
      unfold server_connect in Bd. unfold bind at 1, get in Bd. cbv beta zeta in Bd.
      destruct (Z.eqb_spec (is_valid_server x (w_c (push (ECall (OServerConnect x i p)) w))) HE_SUCCESS) as [Er|Nr]; cbn [negb] in Bd; [|apply Done_inv in Bd; destruct Bd as [<- <-]; split; [exact Nr|exact I0]].
      unfold bind at 1, upd at 1 in Bd. unfold bind at 1 in Bd. destruct (internal_connect _ _ _ _ _ _) as [res u|] eqn:Ic; [|discriminate Bd].
      destruct (@Hi true _ _ _ I0 Ic) as [Nr Iu]. destruct (Z.eqb_spec res HE_SUCCESS); [contradiction|]. cbn [negb] in Bd. apply Done_inv in Bd. destruct Bd as [<- <-]. auto. }
  split; [exact N|]. split; [|exact Q]. apply during_nil. cbn [push w_t collect shown]. now rewrite app_nil_r.
Qed.
Print Assumptions C26_not_started.

(** ** C34: saying goodbye *)
(** State callbacks and messages sent, in order. *)
Definition farewell (s : Z) (e : ev) : list (Z + bytes) :=
  match e with EState v => [inl v] | EWOp (WSend m) => [inr m] | _ => [] end.
Lemma change_plain E s w : s <> HE_STATE_LINK_UP -> c_state (w_c w) <> s ->
  exists w', change_conn_state E (ret tt) s w = Done tt w' /\ c_state (w_c w') = s /\ c_cbs (w_c w') = c_cbs (w_c w) /\
    during farewell w w' (if cb_state (c_cbs (w_c w)) then [inl s] else []).
Proof.
  intros N1 N2. apply Z.eqb_neq in N1. apply Z.eqb_neq in N2. unfold change_conn_state, set_conn_state. unfold bind at 1 2, get at 1. rewrite N2.
  unfold bind at 1, upd at 1. unfold bind at 1, get at 1. cbn [w_c c_cbs set_state]. rewrite N1.
  destruct (cb_state (c_cbs (w_c w))); eexists; (split; [reflexivity|]); (split; [reflexivity|]); (split; [reflexivity|]); unfold during; cbn [w_t collect farewell]; now rewrite ?app_nil_r.
Qed.
(** he_conn_disconnect once TLS is up: the host is told DISCONNECTING, the peer is
    told GOODBYE, the host is told DISCONNECTED, in this order and nothing else;
    otherwise nothing happens. *)
Theorem C34_disconnect : forall E w rc w', call E ODisconnect w rc w' ->
  let s := c_state (w_c w) in
  if c_wolf (w_c w) && negb ((s =? HE_STATE_DISCONNECTING) || (s =? HE_STATE_NONE) || (s =? HE_STATE_CONNECTING) || (s =? HE_STATE_DISCONNECTED)) then
    rc = HE_SUCCESS /\ c_state (w_c w') = HE_STATE_DISCONNECTED /\
    during farewell w w' (if cb_state (c_cbs (w_c w)) then [inl HE_STATE_DISCONNECTING; inr goodbye_message; inl HE_STATE_DISCONNECTED] else [inr goodbye_message])
  else refused ODisconnect (if c_wolf (w_c w) then HE_ERR_INVALID_CONN_STATE else HE_ERR_NEVER_CONNECTED) w rc w'.
Proof.
  intros E w rc w' C. cbv zeta. destruct (call_body C) as (w1 & Bd & ->). change (disconnect E (ret tt) (push (ECall ODisconnect) w) = Done rc w1) in Bd.
  unfold disconnect in Bd. unfold bind at 1, get at 1 in Bd. change (w_c (push (ECall ODisconnect) w)) with (w_c w) in Bd.
  destruct (c_wolf (w_c w)); cbn [negb andb] in *.
  2:{ apply Done_inv in Bd. destruct Bd as [<- <-]. unfold refused. split; [reflexivity|]. split; [discriminate|]. split; reflexivity. }
  destruct (_ || _) eqn:St; cbn [negb].
  { apply Done_inv in Bd. destruct Bd as [<- <-]. unfold refused. split; [reflexivity|]. split; [discriminate|]. split; reflexivity. }
  apply orb_false_iff in St. destruct St as [St S4]. apply orb_false_iff in St. destruct St as [St _]. apply orb_false_iff in St. destruct St as [St _].
  apply Z.eqb_neq in St. set (w0 := push (ECall ODisconnect) w) in *.
  destruct (@change_plain E HE_STATE_DISCONNECTING w0 ltac:(discriminate) St) as (w2 & E2 & T2 & K2 & D2). unfold bind at 1 in Bd. rewrite E2 in Bd.
  unfold bind at 1 in Bd. unfold send_goodbye at 1 in Bd. assert (build_goodbye = Val goodbye_message) as Bg by reflexivity. rewrite Bg in Bd. unfold bind at 1, lift, ret at 1 in Bd.
  unfold bind at 1 in Bd. destruct (send_message E (ret tt) goodbye_message w2) as [r3 w3|] eqn:E3; [|discriminate Bd].
  assert (during farewell w2 w3 [inr goodbye_message]) as D3.
  { apply send_seq in E3. destruct E3 as (rx & we & seg & r & err & d & -> & Sg & _). unfold during. cbn [w_t collect farewell]. rewrite collect_app. cbn [collect farewell].
    rewrite (collect_io (s := c_state (w_c w2)) (f := farewell) (seg := seg)); auto; [now rewrite !app_nil_r|]. intros []; cbn; auto; discriminate. }
  assert (c_state (w_c w3) = HE_STATE_DISCONNECTING /\ c_cbs (w_c w3) = c_cbs (w_c w)) as [T3 K3].
  { apply send_seq in E3. destruct E3 as (rx & we & seg & r & err & d & -> & Sg & _). split; [exact T2|exact K2]. }
  unfold ret at 1 in Bd. unfold bind at 1 in Bd. destruct (wolf_op E (ret tt) WShutdown w3) as [[[r err] d] w4|] eqn:E4; [|discriminate Bd].
  assert (during farewell w3 w4 [] /\ c_state (w_c w4) = HE_STATE_DISCONNECTING /\ cb_state (c_cbs (w_c w4)) = cb_state (c_cbs (w_c w))) as (D4 & T4 & K4).
  { apply wolf_op_seq in E4. destruct E4 as (rx & seg & -> & Sg). split; [|split; [exact T3|cbn [w_c set_rx c_cbs]; now rewrite K3]].
    unfold during. cbn [w_t collect farewell]. rewrite collect_app. cbn [collect farewell].
    rewrite (collect_io (s := c_state (w_c w3)) (f := farewell) (seg := seg)); auto; [now rewrite !app_nil_r|]. intros []; cbn; auto; discriminate. }
  unfold bind at 1, upd at 1 in Bd. match type of Bd with bind _ _ ?v = _ => set (w5 := v) in * end.
  assert (during farewell w4 w5 []) as D5 by (apply during_nil; reflexivity).
  assert (c_state (w_c w5) <> HE_STATE_DISCONNECTED) as T5 by (change (c_state (w_c w4) <> HE_STATE_DISCONNECTED); rewrite T4; discriminate).
  assert (cb_state (c_cbs (w_c w5)) = cb_state (c_cbs (w_c w))) as K5 by exact K4.
  destruct (@change_plain E HE_STATE_DISCONNECTED w5 ltac:(discriminate) T5) as (w6 & E6 & T6 & K6 & D6). unfold bind at 1 in Bd. rewrite E6 in Bd.
  apply Done_inv in Bd. destruct Bd as [<- <-]. split; [reflexivity|]. split; [exact T6|].
  rewrite K5 in D6. change (cb_state (c_cbs (w_c w0))) with (cb_state (c_cbs (w_c w))) in D2.
  assert (during farewell w w0 []) as D0 by (apply during_nil; cbn [w0 push w_t collect farewell]; now rewrite app_nil_r).
  assert (forall v, during farewell v (push (ERet ODisconnect HE_SUCCESS) v) []) as D7 by (intros v; apply during_nil; cbn [push w_t collect farewell]; now rewrite app_nil_r).
  pose proof (during_trans D0 (during_trans D2 (during_trans D3 (during_trans D4 (during_trans D5 (during_trans D6 (D7 w6))))))) as D.
  destruct (cb_state (c_cbs (w_c w))); exact D.
Qed.
Print Assumptions C34_disconnect.

(** ** Examples *)
(** With everything set the call goes on; without an MTU it does nothing. *)
Example connects_ex : exists w', reached plain_env (world_at client_setup) /\
  client_missing dctx (w_c (world_at client_setup)) = None /\ call plain_env (OClientConnect dctx [] []) (world_at client_setup) HE_SUCCESS w'.
Proof. eexists. split; [apply world_at_reached; vm_compute; reflexivity|]. split; vm_compute; reflexivity. Qed.
Example no_mtu_ex : exists w', reached plain_env (world_at [OSetUsername user; OSetPassword pass]) /\
  call plain_env (OClientConnect dctx [] []) (world_at [OSetUsername user; OSetPassword pass]) HE_ERR_CONF_MTU_NOT_SET w'.
Proof. eexists. split; [apply world_at_reached; vm_compute; reflexivity|]. vm_compute; reflexivity. Qed.
Example no_user_ex : exists w', reached plain_env (world_at [OSetPassword pass; OSetMtu 1500]) /\
  call plain_env (OClientConnect dctx [] []) (world_at [OSetPassword pass; OSetMtu 1500]) HE_ERR_CONF_USERNAME_NOT_SET w'.
Proof. eexists. split; [apply world_at_reached; vm_compute; reflexivity|]. vm_compute; reflexivity. Qed.
Example server_no_mtu_ex : exists w', reached plain_env (world_at []) /\ call plain_env (OServerConnect sctx [] []) (world_at []) HE_ERR_CONF_MTU_NOT_SET w'.
Proof. eexists. split; [apply world_at_reached; vm_compute; reflexivity|]. vm_compute; reflexivity. Qed.
Example disconnect_ex : exists w', reached plain_env (world_at client_up) /\ call plain_env ODisconnect (world_at client_up) HE_SUCCESS w' /\
  during farewell (world_at client_up) w' [inl HE_STATE_DISCONNECTING; inr goodbye_message; inl HE_STATE_DISCONNECTED].
Proof. eexists. split; [apply world_at_reached; vm_compute; reflexivity|]. split; vm_compute; reflexivity. Qed.
