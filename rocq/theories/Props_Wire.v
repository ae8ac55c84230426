(** C07, C08: what goes over the wire. *)
From Verif Require Import Base Codes Ctx Config Mss MssSpec Frag FragSpec
  Wire WireSpec ConnState Conn ConnSpec HistSpec CallSpec MsgSpec ConnSteps Hist ConnWp ConnWpApi Frame Seq SeqInside SeqLoop SeqApi SeqWire Scenario
  Props_Auth Props_Data Props_Size Props_Ping.
Unset Strict Implicit.

(** After any history, for any host, plugins included: no packet given to
    outside_write_cb is larger than 1500 bytes. *)
Theorem C07_size : forall E n ops,
  every (fun s e past => forall p, e = EOutside p -> len p <= 1500) (history E n ops).
Proof.
  intros E n ops. apply history_every, Reach_every; try discriminate.
  intros w e R [_ H] p ->. exact (proj1 (proj2 H)).
Qed.
Print Assumptions C07_size.

(** The connection whose settings a call writes with: connecting sets them. *)
Definition writer (o : op) (w w' : world) : conn := if is_connect_op o then w_c w' else w_c w.
(** The session of a connection during a call that receives the messages [ms]:
    the one it had, or one such a message brings. *)
Definition session_in_call (E : env) (w : world) (ms : list (Z * bytes)) (s : Z) : Prop :=
  s = c_session (w_c w) \/ exists m, In m ms /\ session_told (e_le E) (w_c w) m s.

(** What each call does with the buffers wolfSSL hands over ([CallSpec.writing_ok]):
    the number of copies, which results stop them, and what wolfSSL is told. *)
Theorem C08_copies : forall E o w rc w', reached E w -> call E o w rc w' ->
  c_out_chain (writer o w w') = [] ->
  exists ms ws, during got_msg w w' ms /\ during wire w w' (flat_map writing_items ws) /\
    Forall (fun x => exists s, session_in_call E w ms s /\ writing_ok (e_le E) (writer o w w') s (c_pending (w_c w)) x) ws.
Proof. intros E o w rc w' Re C H. exact (wire_call Re C H). Qed.
Print Assumptions C08_copies.

Lemma packets_of_items ws : flat_map (fun x : Z * wire_item => match snd x with Packet p => [p] | _ => [] end) (flat_map writing_items ws) =
  flat_map (fun x : writing => let '(_, items, _, _) := x in flat_map (fun i => match i with Packet p => [p] | _ => [] end) items) ws.
Proof.
  induction ws as [|[[[s items] buf] r] ws IH]; [reflexivity|]. cbn [flat_map writing_items]. rewrite !flat_map_app, IH. f_equal.
  cbn [flat_map snd app]. rewrite app_nil_r. induction items as [|i items IH2]; [reflexivity|]. cbn [map flat_map snd]. now rewrite IH2.
Qed.
Lemma outside_of_wire t : collect outside t = flat_map (fun x : Z * wire_item => match snd x with Packet p => [p] | _ => [] end) (collect wire t).
Proof.
  induction t as [|[s e] t IH]; [reflexivity|]. cbn [collect]. rewrite flat_map_app, <- IH. f_equal. destruct e; try reflexivity. destruct k; reflexivity.
Qed.
Lemma during_outside w w' ws : during wire w w' (flat_map writing_items ws) ->
  during outside w w' (flat_map (fun x : writing => let '(_, items, _, _) := x in flat_map (fun i => match i with Packet p => [p] | _ => [] end) items) ws).
Proof. unfold during. intros H. rewrite !outside_of_wire, H, flat_map_app. f_equal. apply packets_of_items. Qed.
Lemma copies_packets p rets : flat_map (fun i => match i with Packet p => [p] | _ => [] end) (flat_map (fun v : Z => [Packet p; Result v]) rets) = repeat p (length rets).
Proof. induction rets as [|v rets IH]; [reflexivity|]. cbn [flat_map app length repeat]. now rewrite <- IH. Qed.

(** Every datagram a call writes: 16 to 1500 bytes; 'H' 'e', the connection's
    version, the aggressive flag, three zero bytes, the session; then exactly a
    buffer wolfSSL handed over during this call. *)
Definition buffer (s : Z) (e : ev) : list bytes := match e with EWOut b _ => [b] | _ => [] end.
Lemma buffer_of_wire t : collect buffer t = flat_map (fun x : Z * wire_item => match snd x with Written b _ => [b] | _ => [] end) (collect wire t).
Proof.
  induction t as [|[s e] t IH]; [reflexivity|]. cbn [collect]. rewrite flat_map_app, <- IH. f_equal. destruct e; try reflexivity. destruct k; reflexivity.
Qed.
Lemma buffers_of_items ws : (forall s items b r p v, In (s, items, b, r) ws -> In (Written p v) items -> False) ->
  flat_map (fun x : Z * wire_item => match snd x with Written b _ => [b] | _ => [] end) (flat_map writing_items ws) = map (fun x : writing => snd (fst x)) ws.
Proof.
  induction ws as [|[[[s items] buf] r] ws IH]; intros H; [reflexivity|]. cbn [flat_map writing_items]. rewrite !flat_map_app, IH.
  2:{ intros s0 i0 b0 r0 p v Hi Hx. exact (H s0 i0 b0 r0 p v (or_intror Hi) Hx). }
  cbn [flat_map snd app fst map]. assert (flat_map (fun x : Z * wire_item => match snd x with Written b _ => [b] | _ => [] end) (map (fun i => (s, i)) items) = []) as ->; [|reflexivity].
  assert (forall p v, In (Written p v) items -> False) as N by (intros p v Hx; exact (H s items buf r p v (or_introl eq_refl) Hx)). clear H.
  induction items as [|i items IH2]; [reflexivity|]. cbn [map flat_map snd]. rewrite IH2 by (intros p v Hx; exact (N p v (or_intror Hx))).
  destruct i as [p|v|b v]; try reflexivity. destruct (N b v (or_introl eq_refl)).
Qed.
Theorem C07_datagram : forall E o w rc w', reached E w -> call E o w rc w' ->
  let c := writer o w w' in
  c_out_chain c = [] -> c_io c <> HE_CONNECTION_TYPE_STREAM ->
  exists ms ps bufs, during got_msg w w' ms /\ during outside w w' ps /\ during buffer w w' bufs /\
    Forall (fun p => 16 <= len p <= 1500 /\
      exists s buf, session_in_call E w ms s /\ In buf bufs /\
        p = [72; 101; c_vmaj c; c_vmin c; if c_aggr c then 1 else 0; 0; 0; 0]
            ++ bytes64 (e_le E) (session_shown (c_no_roam c) s (c_pending (w_c w))) ++ buf) ps.
Proof.
  intros E o w rc w' Re C c Ch Io. destruct (C08_copies Re C Ch) as (ms & ws & Hm & Hw & F). fold c in F.
  exists ms. eexists. exists (map (fun x : writing => snd (fst x)) ws). split; [exact Hm|]. split; [exact (during_outside Hw)|]. apply Z.eqb_neq in Io.
  assert (forall s items b r, In (s, items, b, r) ws -> forall i, In i items ->
     match i with Packet p => len b <= 1484 /\ exists v, session_in_call E w ms v /\ p = wire_header (e_le E) (c_vmaj c) (c_vmin c) (c_aggr c) (session_shown (c_no_roam c) v (c_pending (w_c w))) ++ b
                | Result _ => True | Written _ _ => False end) as A.
  { intros s items b r Hi i Ii. rewrite Forall_forall in F. destruct (F _ Hi) as (v & Sv & Ok). unfold writing_ok in Ok. rewrite Io in Ok.
    destruct (negb (c_wolf_ctx c)); [destruct Ok as [-> _]; destruct Ii|]. destruct (Z.ltb_spec 1484 (len b)); [destruct Ok as [-> _]; destruct Ii|].
    destruct (cb_outside _); [|destruct Ok as [-> _]; destruct Ii]. destruct Ok as (rets & ok & _ & -> & _).
    apply in_flat_map in Ii. destruct Ii as (v' & _ & [<-|[<-|[]]]); [|exact Logic.I]. split; [assumption|]. exists v. auto. }
  split.
  { unfold during in *. rewrite !buffer_of_wire, Hw, flat_map_app. f_equal. apply buffers_of_items. intros s items b r p v Hi Ii. exact (A _ _ _ _ Hi _ Ii). }
  rewrite Forall_forall. intros p Hp. apply in_flat_map in Hp. destruct Hp as ([[[s items] b] r] & Hi & Hp).
  apply in_flat_map in Hp. destruct Hp as (i & Ii & Hp). specialize (A _ _ _ _ Hi _ Ii). destruct i; try destruct Hp as [->|[]]; try destruct Hp.
  destruct A as (L & v & Sv & ->). split.
  { unfold wire_header. rewrite !len_app, len_bytes64. change (len [72; 101; c_vmaj c; c_vmin c; if c_aggr c then 1 else 0; 0; 0; 0]) with 8. pose proof (len_nonneg b). lia. }
  exists v, b. split; [exact Sv|]. split; [|unfold wire_header; now rewrite <- app_assoc]. apply in_map_iff. eexists. split; [|exact Hi]. reflexivity.
Qed.
Print Assumptions C07_datagram.

(** Stream connections: what is written is the buffer itself, at most its first
    1500 bytes, once, and wolfSSL is told how much. *)
Theorem C07_stream : forall E o w rc w', reached E w -> call E o w rc w' ->
  let c := writer o w w' in
  c_out_chain c = [] -> c_io c = HE_CONNECTION_TYPE_STREAM -> c_wolf_ctx c = true -> cb_outside (c_cbs c) = true ->
  exists ws, during wire w w' (flat_map writing_items ws) /\
    Forall (fun x : writing => let '(_, items, buf, r) := x in
      exists v, items = [Packet (firstn (Z.to_nat 1500) buf); Result v] /\
                r = if v =? HE_SUCCESS then Z.min 1500 (len buf) else WOLFSSL_CBIO_ERR_GENERAL) ws.
Proof.
  intros E o w rc w' Re C c Ch Io Wc Cb. destruct (C08_copies Re C Ch) as (ms & ws & Hm & Hw & F). fold c in F. exists ws. split; [exact Hw|].
  eapply Forall_impl; [|exact F]. intros [[[s items] buf] r] (v & _ & Ok). unfold writing_ok in Ok. rewrite Wc, Io, Cb in Ok. cbn [negb] in Ok.
  change (HE_CONNECTION_TYPE_STREAM =? HE_CONNECTION_TYPE_STREAM) with true in Ok. cbv iota zeta in Ok. destruct Ok as (rets & ok & At & -> & ->).
  destruct rets as [|v' rets]; [destruct At|]. cbn [attempts] in At. exists v'. destruct (v' =? HE_SUCCESS).
  - destruct rets; [|destruct At]. subst ok. split; [reflexivity|]. unfold len. rewrite firstn_length. lia.
  - destruct At as [-> ->]. auto.
Qed.
Print Assumptions C07_stream.

(** If outside_write_cb never fails during a call, each buffer (at most 1484
    bytes) wolfSSL hands over is written exactly once while ONLINE without
    aggressive mode, exactly three times otherwise; identical copies. *)
Theorem C08_exact : forall E o w rc w', reached E w -> call E o w rc w' ->
  let c := writer o w w' in
  c_out_chain c = [] -> c_io c <> HE_CONNECTION_TYPE_STREAM -> c_wolf_ctx c = true -> cb_outside (c_cbs c) = true ->
  exists ws, during wire w w' (flat_map writing_items ws) /\
    Forall (fun x : writing => let '(s, items, buf, r) := x in
      (forall v, In (Result v) items -> v = HE_SUCCESS) -> len buf <= 1484 ->
      r = len buf /\ exists p, items = flat_map (fun _ : unit => [Packet p; Result HE_SUCCESS])
        (repeat tt (if (s =? HE_STATE_ONLINE) && negb (c_aggr c) then 1%nat else 3%nat))) ws.
Proof.
  intros E o w rc w' Re C c Ch Io Wc Cb. destruct (C08_copies Re C Ch) as (ms & ws & Hm & Hw & F). fold c in F. exists ws. split; [exact Hw|].
  apply Z.eqb_neq in Io.
  eapply Forall_impl; [|exact F]. intros [[[s items] buf] r] (v & _ & Ok) Hv Lb. unfold writing_ok in Ok. rewrite Wc, Io, Cb in Ok. cbn [negb] in Ok.
  destruct (Z.ltb_spec 1484 (len buf)); [lia|]. cbv zeta in Ok. destruct Ok as (rets & ok & At & -> & ->).
  set (n := if _ : bool then 1%nat else 3%nat) in *. set (p := wire_header _ _ _ _ _ ++ buf) in *. clearbody n p.
  assert (Forall (fun v => v = HE_SUCCESS) rets) as Hs.
  { rewrite Forall_forall. intros x Hx. apply Hv. apply in_flat_map. exists x. split; [exact Hx|]. right. now left. }
  clear Hv F Hw. enough (ok = true /\ rets = repeat HE_SUCCESS n) as [-> ->].
  { split; [reflexivity|]. exists p. clear. induction n; [reflexivity|]. cbn [repeat flat_map]. now rewrite IHn. }
  clear - At Hs. revert rets At Hs. induction n as [|n IH]; intros [|v rets] At Hs; cbn [attempts] in At; try destruct At.
  - split; reflexivity.
  - inversion_clear Hs as [|? ? Hv Hr]. subst v. change (HE_SUCCESS =? HE_SUCCESS) with true in At. cbv iota in At. destruct (IH rets At Hr) as [-> ->]. auto.
Qed.
Print Assumptions C08_exact.

(** ** The theorems say something *)
(** A packet sent while ONLINE is one datagram; the credentials, sent before, go
    out three times; a failing outside_write_cb stops after the first. *)
Definition deaf_cb (t : trace) : Z := match t with (_, EOutside _) :: _ => 1 | _ => plain_cb t end.
Definition deaf_env : env :=
  Env true 50 plain_ask deaf_cb (fun _ => (ip 1, ip 2, ip 3)) (fun _ => (HE_PLUGIN_SUCCESS, [])) plain_wolf (fun _ => HDone).
Definition to_link : list op := client_setup ++ [OClientConnect dctx [] []].
Example C08_example_online :
  let w := world_at client_up in let w' := world_at (client_up ++ [OInside ipv4]) in
  let p := dgram 4660 (data_message true 1 2 ipv4 0) in
  reached plain_env w /\ call plain_env (OInside ipv4) w HE_SUCCESS w' /\ c_out_chain (w_c w) = [] /\ c_io (w_c w) <> HE_CONNECTION_TYPE_STREAM /\
  c_wolf_ctx (w_c w) = true /\ cb_outside (c_cbs (w_c w)) = true /\ during outside w w' [p] /\
  during wire w w' (flat_map writing_items [(HE_STATE_ONLINE, [Packet p; Result 0], data_message true 1 2 ipv4 0, 27)]).
Proof.
  cbv zeta. split; [apply world_at_reached; vm_compute; reflexivity|]. conj; vm_compute; try reflexivity. discriminate.
Qed.
Example C08_example_before :
  let o := OOutside (dgram 0 []) in
  let w := world_at to_link in let w' := world_at (to_link ++ [o]) in
  let p := dgram 0 (userpass_message user pass) in
  reached plain_env w /\ call plain_env o w HE_SUCCESS w' /\ c_out_chain (w_c w) = [] /\ during outside w w' [p; p; p].
Proof.
  cbv zeta. split; [apply world_at_reached; vm_compute; reflexivity|]. conj; vm_compute; reflexivity.
Qed.
Lemma world_in_reached E ops : finishes E 0 ops = true -> reached E (world_of (run E 0 ops world_new)).
Proof. intros H. exists ops. unfold finishes in H. destruct (run E 0 ops world_new) as [[] w|]; [reflexivity|discriminate]. Qed.
Example C08_example_fails :
  let o := OOutside (dgram 0 []) in
  let w := world_of (run deaf_env 0 to_link world_new) in let w' := world_of (run deaf_env 0 (to_link ++ [o]) world_new) in
  let p := dgram 0 (userpass_message user pass) in
  reached deaf_env w /\ (exists rc, call deaf_env o w rc w') /\ c_out_chain (w_c w) = [] /\ during outside w w' [p].
Proof.
  cbv zeta. split; [apply world_in_reached; vm_compute; reflexivity|]. split; [eexists; vm_compute; reflexivity|]. conj; vm_compute; reflexivity.
Qed.
(** The session of a datagram can be one that a message received in the same call
    brought: the answer to a PING that follows the configuration. *)
Definition two_wolf (t : trace) : strat :=
  match t with
  | (_, EWOp WRecv) :: p =>
    match collect got_msg p with
    | [] => WRead 1500 (fun r d => if 0 <? r then WRet r 0 (firstn 105 d) else WRet (-1) SSL_ERROR_WANT_READ [])
    | [(_, m)] => WRet 5 0 (ping_message 7 0)
    | _ => WRet (-1) SSL_ERROR_WANT_READ []
    end
  | _ => plain_wolf t
  end.
Definition two_env : env :=
  Env true 50 plain_ask plain_cb (fun _ => (ip 1, ip 2, ip 3)) (fun _ => (HE_PLUGIN_SUCCESS, [])) two_wolf (fun _ => HDone).
Example C07_session_example :
  let ops := to_link ++ [OOutside (dgram 0 [])] in
  let o := OOutside (dgram 0 (config_message true (ip 1) (ip 2) (ip 3) 4660)) in
  let w := world_of (run two_env 0 ops world_new) in let w' := world_of (run two_env 0 (ops ++ [o]) world_new) in
  reached two_env w /\ (exists rc, call two_env o w rc w') /\ c_session (w_c w) = 0 /\ during outside w w' [dgram 4660 (pong_message 7)].
Proof.
  cbv zeta. split; [apply world_in_reached; vm_compute; reflexivity|]. split; [exists HE_SUCCESS; vm_compute; reflexivity|]. conj; vm_compute; reflexivity.
Qed.
