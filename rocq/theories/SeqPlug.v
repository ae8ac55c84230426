(** Proofs for C17: plugin chains. *)
From Verif Require Import Base Codes Ctx Config Mss MssSpec MssProofs Frag FragSpec
  Wire WireSpec WireProofs ConnState Conn ConnSpec CallSpec MsgSpec ConnSteps ConnWpApi Frame FrameLoop Reaction Seq SeqInside SeqLoop SeqApi SeqWire PlugSpec.
Unset Strict Implicit.

(** ** Passes *)
Lemma pass_app b cap ids1 : forall ids2 d l1 rc1 out1, pass b cap ids1 d l1 rc1 out1 ->
  (rc1 <> HE_SUCCESS -> pass b cap (ids1 ++ ids2) d l1 rc1 out1) /\
  (rc1 = HE_SUCCESS -> forall l2 rc2 out2, pass b cap ids2 out1 l2 rc2 out2 -> pass b cap (ids1 ++ ids2) d (l1 ++ l2) rc2 out2).
Proof.
  induction ids1 as [|id ids1 IH]; intros ids2 d l1 rc1 out1; cbn [pass app].
  - intros (-> & -> & ->). split; [intros N; now destruct N|]. auto.
  - intros (r & o & l' & -> & H). destruct (r =? HE_PLUGIN_FAIL) eqn:Rf.
    { destruct H as (-> & -> & ->). split; [|discriminate]. intros _. exists r, o, []. rewrite Rf. auto. }
    destruct (r =? HE_PLUGIN_DROP) eqn:Rd.
    { destruct H as (-> & -> & ->). split; [|discriminate]. intros _. exists r, o, []. rewrite Rf, Rd. auto. }
    destruct (IH ids2 o l' rc1 out1 H) as [A B]. split.
    + intros N. exists r, o, l'. rewrite Rf, Rd. auto.
    + intros Eq l2 rc2 out2 H2. exists r, o, (l' ++ l2). rewrite Rf, Rd. split; [reflexivity|]. now apply B.
Qed.
Lemma pass_rc b cap ids : forall d l rc out, pass b cap ids d l rc out -> rc = HE_SUCCESS \/ rc = HE_ERR_FAILED \/ rc = HE_ERR_PLUGIN_DROP.
Proof.
  induction ids as [|id ids IH]; intros d l rc out; cbn [pass]; [intros (_ & -> & _); auto|].
  intros (r & o & l' & _ & H). destruct (r =? HE_PLUGIN_FAIL); [destruct H as (_ & -> & _); auto|]. destruct (r =? HE_PLUGIN_DROP); [destruct H as (_ & -> & _); auto|].
  eapply IH; exact H.
Qed.
Lemma entries_app s l1 l2 : entries s (l1 ++ l2) = entries s l2 ++ entries s l1.
Proof. unfold entries. now rewrite flat_map_app, rev_app_distr. Qed.
Lemma pass_only b cap ids : forall d l rc out, pass b cap ids d l rc out -> forall s, collect plugged (entries s l) = l.
Proof.
  induction ids as [|id ids IH]; intros d l rc out; cbn [pass]; [intros (-> & _) s; reflexivity|].
  intros (r & o & l' & -> & H) s. change (PCalled b id d cap :: PAnswer r o :: l') with ([PCalled b id d cap; PAnswer r o] ++ l'). rewrite entries_app.
  rewrite collect_app. assert (collect plugged (entries s l') = l') as ->; [|reflexivity].
  destruct (r =? HE_PLUGIN_FAIL); [destruct H as (-> & _); reflexivity|]. destruct (r =? HE_PLUGIN_DROP); [destruct H as (-> & _); reflexivity|]. eapply IH; exact H.
Qed.
Lemma collect_entries A (f : Z -> ev -> list A) s l : (forall s b i d c, f s (EPlugin b i d c) = []) -> (forall s r d, f s (EPluginRet r d) = []) ->
  collect f (entries s l) = [].
Proof.
  intros H1 H2. induction l as [|x l IH]; [reflexivity|]. change (x :: l) with ([x] ++ l). rewrite entries_app, collect_app, IH, app_nil_r.
  destruct x; cbn; rewrite ?H1, ?H2; reflexivity.
Qed.
Definition plugs (s : Z) (l : list plug_item) (w : world) : world := World (w_c w) (entries s l ++ w_t w).

Section P.
Variable E : env.
Notation hk := (@ret unit tt).
Lemma call_plugin_pass b i d c w : exists r o, bytes_ok o /\
  call_plugin E b i d c w = Done (r, o) (plugs (c_state (w_c w)) [PCalled b i d c; PAnswer r o] w).
Proof.
  unfold call_plugin, bind, emit, log, ret. cbn [w_c w_t]. destruct (e_plugin E _) as [r o]. exists r, (u8s o). split; [apply bytes_ok_u8s|reflexivity].
Qed.
Lemma ingress_pass ch : forall d cap w, exists rc out l, plugin_ingress E ch d cap w = Done (rc, out) (plugs (c_state (w_c w)) l w) /\
  pass true cap (in_order true ch) d l rc out /\ (bytes_ok d -> bytes_ok out).
Proof.
  induction ch as [|[p|] ch IH]; intros d cap w; cbn [plugin_ingress].
  - exists HE_SUCCESS, d, []. split; [destruct w; reflexivity|]. split; [cbn; auto|auto].
  - cbn [in_order takers flat_map]. destruct (pl_in p); [|apply IH]. cbn [app pass]. unfold bind at 1.
    destruct (call_plugin_pass true (pl_id p) d cap w) as (r & o & Bo & ->). destruct (r =? HE_PLUGIN_FAIL) eqn:Rf.
    { exists HE_ERR_FAILED, o. eexists. split; [reflexivity|]. split; [|auto]. exists r, o, []. rewrite Rf. auto. }
    destruct (r =? HE_PLUGIN_DROP) eqn:Rd.
    { exists HE_ERR_PLUGIN_DROP, o. eexists. split; [reflexivity|]. split; [|auto]. exists r, o, []. rewrite Rf, Rd. auto. }
    set (w1 := plugs _ _ w). destruct (IH o cap w1) as (rc & out & l & -> & Ps & Bs). exists rc, out, ([PCalled true (pl_id p) d cap; PAnswer r o] ++ l). split.
    + unfold plugs. rewrite entries_app, <- app_assoc. reflexivity.
    + split; [|auto]. exists r, o, l. rewrite Rf, Rd. auto.
  - apply IH.
Qed.
Lemma egress_pass ch : forall d cap w, exists rc out l, plugin_egress E ch d cap w = Done (rc, out) (plugs (c_state (w_c w)) l w) /\
  pass false cap (in_order false ch) d l rc out /\ (bytes_ok d -> bytes_ok out).
Proof.
  induction ch as [|x ch IH]; intros d cap w; cbn [plugin_egress].
  - exists HE_SUCCESS, d, []. split; [destruct w; reflexivity|]. split; [cbn; auto|auto].
  - unfold bind at 1. destruct (IH d cap w) as (rc & out & l & -> & Ps & Bs).
    set (ids := match x with Some p => if pl_out p then [pl_id p] else [] | None => [] end).
    assert (in_order false (x :: ch) = in_order false ch ++ rev ids) as ->.
    { cbn [in_order takers flat_map]. now rewrite rev_app_distr. }
    destruct (Z.eqb_spec rc HE_SUCCESS) as [->|N]; cbn [negb].
    2:{ exists rc, out, l. split; [reflexivity|]. split; [|auto]. now apply (pass_app (rev ids) Ps). }
    pose proof (proj2 (pass_app (rev ids) Ps) eq_refl) as Ap.
    assert (exists rc out l, Done (HE_SUCCESS, out) (plugs (c_state (w_c w)) l w) = Done (rc, out) (plugs (c_state (w_c w)) l w)) as _ by (exists HE_SUCCESS, out, l; reflexivity).
    destruct x as [p|]; [destruct (pl_out p) eqn:Po|]; unfold ids in Ap |- *; rewrite ?Po in *; cbn [rev app] in *.
    + set (w1 := plugs _ l w). unfold bind at 1. destruct (call_plugin_pass false (pl_id p) out cap w1) as (r & o & Bo & ->).
      assert (plugs (c_state (w_c w1)) [PCalled false (pl_id p) out cap; PAnswer r o] w1 = plugs (c_state (w_c w)) (l ++ [PCalled false (pl_id p) out cap; PAnswer r o]) w) as ->.
      { unfold plugs. rewrite entries_app, <- app_assoc. reflexivity. }
      destruct (r =? HE_PLUGIN_FAIL) eqn:Rf.
      { exists HE_ERR_FAILED, o. eexists. split; [reflexivity|]. split; [|auto]. apply Ap. cbn [pass]. exists r, o, []. rewrite Rf. auto. }
      destruct (r =? HE_PLUGIN_DROP) eqn:Rd.
      { exists HE_ERR_PLUGIN_DROP, o. eexists. split; [reflexivity|]. split; [|auto]. apply Ap. cbn [pass]. exists r, o, []. rewrite Rf, Rd. auto. }
      exists HE_SUCCESS, o. eexists. split; [reflexivity|]. split; [|auto]. apply Ap. cbn [pass]. exists r, o, []. rewrite Rf, Rd. auto.
    + exists HE_SUCCESS, out, l. split; [reflexivity|]. split; [|auto]. rewrite <- (app_nil_r l). apply Ap. cbn. auto.
    + exists HE_SUCCESS, out, l. split; [reflexivity|]. split; [|auto]. rewrite <- (app_nil_r l). apply Ap. cbn. auto.
Qed.
End P.

(** ** Uses *)
Definition pparams (c : conn) :=
  (c_vmaj c, c_vmin c, c_aggr c, c_wolf_ctx c, c_io c, c_in_chain c, c_out_chain c, c_cbs c).
Section U.
Variable E : env.
Notation hk := (@ret unit tt).
Notation T := (fun _ : world => True).
Variable c0 : conn.
Variable X : list plug_item.
Hypothesis H1 : 0 <= c_vmaj c0 < 256.
Hypothesis H2 : 0 <= c_vmin c0 < 256.
Notation ok := (use (e_le E) c0).
Definition U2 (w : world) : Prop := exists us, collect plugged (w_t w) = X ++ concat us /\ Forall ok us.
Definition UW (w : world) : Prop := pparams (w_c w) = pparams c0 /\ U2 w.
Lemma U2_add u w w' : ok u -> collect plugged (w_t w') = collect plugged (w_t w) ++ u -> U2 w -> U2 w'.
Proof.
  intros O C (us & Hc & Ho). exists (us ++ [u]). split; [|apply Forall_app; auto]. rewrite C, Hc, concat_app. cbn [concat]. now rewrite app_nil_r, app_assoc.
Qed.
Lemma U2_push e w : (forall s, plugged s e = []) -> U2 w -> U2 (push e w).
Proof. intros H (us & Hc & Ho). exists us. split; [|exact Ho]. cbn [push w_t collect]. now rewrite H, app_nil_r. Qed.
Lemma UW_push e w : (forall s, plugged s e = []) -> UW w -> UW (push e w).
Proof. intros H (P & R). split; [exact P|now apply U2_push]. Qed.
Lemma UW_conn f w : (forall c, pparams (f c) = pparams c) -> UW w -> UW (with_c f w).
Proof. intros H (P & R). split; [cbn [with_c w_c]; now rewrite H|exact R]. Qed.
Lemma io_event_plugged e : io_event e = false -> forall s, plugged s e = [].
Proof. intros H s. destruct e; try reflexivity; discriminate H. Qed.

(** Copies of a packet. *)
Lemma outside_copy p w : cb_outside (c_cbs (w_c w)) = true -> exists v w', call_outside E hk p w = Done v w' /\ w_c w' = w_c w /\
  collect plugged (w_t w') = collect plugged (w_t w) ++ [POutside p].
Proof. intros H. destruct (@call_outside_wire E p w H) as [v ->]. eexists _, _. split; [reflexivity|]. split; [reflexivity|]. cbn [push w_t collect plugged]. now rewrite app_nil_r. Qed.
Lemma dtls_copies p sz w r w' :
  (let! k := get c_cbs in
   if cb_outside k then
     let! res := call_outside E hk p in
     if negb (res =? HE_SUCCESS) then ret WOLFSSL_CBIO_ERR_GENERAL else
     let! st := get c_state in
     let! ag := get c_aggr in
     if negb (st =? HE_STATE_ONLINE) || ag then
       let! res := call_outside E hk p in
       if negb (res =? HE_SUCCESS) then ret WOLFSSL_CBIO_ERR_GENERAL else
       let! res := call_outside E hk p in
       if negb (res =? HE_SUCCESS) then ret WOLFSSL_CBIO_ERR_GENERAL else
       ret sz
     else ret sz
   else ret sz) w = Done r w' ->
  exists n, (if cb_outside (c_cbs (w_c w)) then (1 <= n <= 3)%nat else n = 0%nat) /\ w_c w' = w_c w /\
    collect plugged (w_t w') = collect plugged (w_t w) ++ repeat (POutside p) n.
Proof.
  unfold bind at 1, get at 1. destruct (cb_outside (c_cbs (w_c w))) eqn:Cb.
  2:{ intros H. apply Done_inv in H. destruct H as [_ <-]. exists 0%nat. cbn. rewrite app_nil_r. auto. }
  unfold bind at 1. destruct (@outside_copy p w Cb) as (v & w1 & -> & C1 & T1).
  assert (forall rr, Done rr w1 = Done r w' -> exists n, (1 <= n <= 3)%nat /\ w_c w' = w_c w /\ collect plugged (w_t w') = collect plugged (w_t w) ++ repeat (POutside p) n) as F1.
  { intros rr H. apply Done_inv in H. destruct H as [_ <-]. exists 1%nat. split; [lia|]. auto. }
  destruct (negb (v =? HE_SUCCESS)); [apply F1|]. unfold bind at 1, get at 1. unfold bind at 1, get at 1. destruct (_ || _); [|apply F1]. clear F1.
  unfold bind at 1. destruct (@outside_copy p w1) as (v2 & w2 & -> & C2 & T2); [now rewrite C1|].
  assert (forall rr, Done rr w2 = Done r w' -> exists n, (1 <= n <= 3)%nat /\ w_c w' = w_c w /\ collect plugged (w_t w') = collect plugged (w_t w) ++ repeat (POutside p) n) as F2.
  { intros rr H. apply Done_inv in H. destruct H as [_ <-]. exists 2%nat. split; [lia|]. split; [congruence|]. rewrite T2, T1, <- app_assoc. reflexivity. }
  destruct (negb (v2 =? HE_SUCCESS)); [apply F2|]. clear F2.
  unfold bind at 1. destruct (@outside_copy p w2) as (v3 & w3 & -> & C3 & T3); [now rewrite C2, C1|].
  assert (forall rr, Done rr w3 = Done r w' -> exists n, (1 <= n <= 3)%nat /\ w_c w' = w_c w /\ collect plugged (w_t w') = collect plugged (w_t w) ++ repeat (POutside p) n) as F3.
  { intros rr H. apply Done_inv in H. destruct H as [_ <-]. exists 3%nat. split; [lia|]. split; [congruence|]. rewrite T3, T2, T1, <- !app_assoc. reflexivity. }
  destruct (negb (v3 =? HE_SUCCESS)); apply F3.
Qed.
Lemma write_use buf w : pparams (w_c w) = pparams c0 ->
  match io_write E hk buf w with
  | Done r w' => w_c w' = w_c w /\ exists u, ok u /\ collect plugged (w_t w') = collect plugged (w_t w) ++ u
  | Stuck _ _ => True
  end.
Proof.
  intros P. assert (c_vmaj (w_c w) = c_vmaj c0 /\ c_vmin (w_c w) = c_vmin c0 /\ c_aggr (w_c w) = c_aggr c0 /\ c_wolf_ctx (w_c w) = c_wolf_ctx c0 /\ c_io (w_c w) = c_io c0 /\
    c_out_chain (w_c w) = c_out_chain c0 /\ c_cbs (w_c w) = c_cbs c0) as (P1 & P2 & P3 & P7 & P8 & P9 & P10)
    by (unfold pparams in P; repeat split; congruence).
  pose proof (len_nonneg buf) as Lb. unfold io_write. unfold bind at 1, get at 1. rewrite P8. unfold bind at 1.
  assert (forall w1 r u, w_c w1 = w_c w -> collect plugged (w_t w1) = collect plugged (w_t w) ++ u -> ok (u ++ [PWritten buf r]) ->
    match (emit (EWOut buf r) ;;; ret r) w1 with
    | Done r w' => w_c w' = w_c w /\ exists u, ok u /\ collect plugged (w_t w') = collect plugged (w_t w) ++ u
    | Stuck _ _ => True
    end) as Fin.
  { intros w1 r u C1 T1 O. unfold bind, emit, ret. cbn [w_c]. split; [exact C1|]. exists (u ++ [PWritten buf r]). split; [exact O|].
    cbn [w_t collect plugged]. now rewrite T1, app_assoc. }
  assert (match (emit (EWOut buf WOLFSSL_CBIO_ERR_GENERAL) ;;; ret WOLFSSL_CBIO_ERR_GENERAL) w with
    | Done r w' => w_c w' = w_c w /\ exists u, ok u /\ collect plugged (w_t w') = collect plugged (w_t w) ++ u
    | Stuck _ _ => True
    end) as Ref.
  { apply (Fin w WOLFSSL_CBIO_ERR_GENERAL []); [reflexivity|now rewrite app_nil_r|]. apply use_refused. }
  destruct (c_io c0 =? HE_CONNECTION_TYPE_STREAM) eqn:Io.
  - unfold tls_write. unfold bind at 1, get at 1. rewrite P7. destruct (c_wolf_ctx c0) eqn:Ctx; cbn [negb]; [|exact Ref].
    set (n := if len buf <? HE_MAX_WIRE_MTU then len buf else HE_MAX_WIRE_MTU).
    assert (0 <= n <= len buf) as Hn by (unfold n, HE_MAX_WIRE_MTU; destruct (Z.ltb_spec (len buf) 1500); lia).
    rewrite ldn_ok by lia. unfold bind at 1, lift at 1, ret at 1. rewrite P9.
    assert (slice buf 0 n = firstn (Z.to_nat 1500) buf) as ->.
    { unfold slice, n, HE_MAX_WIRE_MTU. change (Z.to_nat 0) with 0%nat. cbn [skipn]. destruct (Z.ltb_spec (len buf) 1500); [|reflexivity].
      unfold len. rewrite Nat2Z.id, firstn_all. symmetry. apply firstn_all2. unfold len in *. lia. }
    set (p := firstn (Z.to_nat 1500) buf). assert (framed (e_le E) c0 buf p) as Fr by (split; [exact Ctx|]; now rewrite Io).
    clearbody p n. unfold bind at 1. change HE_MAX_WIRE_MTU with 1500.
    destruct (@egress_pass E (c_out_chain c0) p 1500 w) as (rc & out & l & -> & Ps & _). set (w1 := plugs _ _ _).
    assert (w_c w1 = w_c w) as C1 by reflexivity. assert (collect plugged (w_t w1) = collect plugged (w_t w) ++ l) as T1.
    { cbn [w1 plugs w_t]. rewrite collect_app. f_equal. eapply pass_only; exact Ps. }
    assert (forall w2 r k, w_c w2 = w_c w -> collect plugged (w_t w2) = collect plugged (w_t w) ++ l ++ repeat (POutside out) k -> 
      (if (rc =? HE_SUCCESS) && (len out <=? 1500) && cb_outside (c_cbs c0) then (1 <= k <= 3)%nat else k = 0%nat) ->
      (if rc =? HE_ERR_PLUGIN_DROP then r = len buf else if (rc =? HE_SUCCESS) && (len out <=? 1500) then True else r = WOLFSSL_CBIO_ERR_GENERAL) ->
      match (emit (EWOut buf r) ;;; ret r) w2 with
      | Done r w' => w_c w' = w_c w /\ exists u, ok u /\ collect plugged (w_t w') = collect plugged (w_t w) ++ u
      | Stuck _ _ => True
      end) as Fin2.
    { intros w2 r k C2 T2 Hk Hr. eapply Fin; [exact C2|exact T2|]. rewrite <- app_assoc. eapply use_outside; eauto. }
    clearbody w1. destruct (rc =? HE_ERR_PLUGIN_DROP) eqn:Dr.
    { apply Z.eqb_eq in Dr. subst rc. unfold ret at 1. eapply (Fin2 w1 _ 0%nat); [exact C1|cbn [repeat]; now rewrite app_nil_r|reflexivity|reflexivity]. }
    destruct (rc =? HE_SUCCESS) eqn:Su; cbn [negb orb andb] in Fin2 |- *.
    2:{ unfold ret at 1. eapply (Fin2 w1 _ 0%nat); [exact C1|cbn [repeat]; now rewrite app_nil_r|reflexivity|reflexivity]. }
    destruct (Z.ltb_spec 1500 (len out)) as [Big|Sm]; destruct (Z.leb_spec (len out) 1500); try lia; cbn [andb] in Fin2.
    { unfold ret at 1. eapply (Fin2 w1 _ 0%nat); [exact C1|cbn [repeat]; now rewrite app_nil_r|reflexivity|reflexivity]. }
    unfold bind at 1, get at 1. rewrite C1, P10. destruct (cb_outside (c_cbs c0)) eqn:Cb.
    + unfold bind at 1. destruct (@outside_copy out w1) as (v & w2 & -> & C2 & T2); [now rewrite C1, P10|].
      assert (collect plugged (w_t w2) = collect plugged (w_t w) ++ l ++ repeat (POutside out) 1) as T3 by (rewrite T2, T1; cbn; now rewrite <- app_assoc).
      destruct (negb (v =? HE_SUCCESS)); unfold ret at 1; (eapply Fin2; [congruence|exact T3|lia|exact I]).
    + unfold ret at 1. eapply (Fin2 w1 _ 0%nat); [exact C1|cbn [repeat]; now rewrite app_nil_r|reflexivity|exact I].
  - unfold dtls_write. unfold bind at 1, get at 1. rewrite P7. destruct (c_wolf_ctx c0) eqn:Ctx; cbn [negb]; [|exact Ref].
    change sizeof_wire_hdr with 16. change HE_MAX_WIRE_MTU with 1500.
    destruct (Z.ltb_spec 1500 (len buf + 16)) as [Y|Y]; [exact Ref|].
    rewrite P1, P2, P3. rewrite write_packet_header_ok by (auto; lia). unfold bind at 1, lift at 1, ret at 1.
    match goal with |- context [wire_header ?a ?b ?c ?d ?e] => set (h := wire_header a b c d e); assert (exists s, h = wire_header (e_le E) (c_vmaj c0) (c_vmin c0) (c_aggr c0) s) as Eh by (eexists; reflexivity) end.
    assert (len h = 16) as Lh by (unfold h, wire_header; rewrite len_app, len_bytes64; reflexivity).
    rewrite stn_tail by (auto; lia). unfold bind at 1, lift at 1, ret at 1.
    rewrite ldn_ok by (rewrite ?len_app, ?len_zeros; lia). unfold bind at 1, lift at 1, ret at 1.
    assert (slice ((h ++ buf) ++ zeros (1500 - 16 - len buf)) 0 (len buf + 16) = h ++ buf) as Sl.
    { unfold slice. change (Z.to_nat 0) with 0%nat. cbn [skipn]. replace (Z.to_nat (len buf + 16)) with (length (h ++ buf)).
      - apply firstn_app_exact.
      - rewrite app_length. unfold len in *. lia. }
    rewrite <- ?app_assoc in *. rewrite Sl. set (p := h ++ buf). rewrite P9.
    assert (framed (e_le E) c0 buf p) as Fr.
    { split; [exact Ctx|]. rewrite Io. split; [lia|]. destruct Eh as [s Eh]. exists s. unfold p. now rewrite Eh. }
    clearbody p. clear h Eh Lh Sl. unfold bind at 1.
    destruct (@egress_pass E (c_out_chain c0) p 1500 w) as (rc & out & l & -> & Ps & _). set (w1 := plugs _ _ _).
    assert (w_c w1 = w_c w) as C1 by reflexivity. assert (collect plugged (w_t w1) = collect plugged (w_t w) ++ l) as T1.
    { cbn [w1 plugs w_t]. rewrite collect_app. f_equal. eapply pass_only; exact Ps. }
    assert (forall w2 r k, w_c w2 = w_c w -> collect plugged (w_t w2) = collect plugged (w_t w) ++ l ++ repeat (POutside out) k -> 
      (if (rc =? HE_SUCCESS) && (len out <=? 1500) && cb_outside (c_cbs c0) then (1 <= k <= 3)%nat else k = 0%nat) ->
      (if rc =? HE_ERR_PLUGIN_DROP then r = len buf else if (rc =? HE_SUCCESS) && (len out <=? 1500) then True else r = WOLFSSL_CBIO_ERR_GENERAL) ->
      match (emit (EWOut buf r) ;;; ret r) w2 with
      | Done r w' => w_c w' = w_c w /\ exists u, ok u /\ collect plugged (w_t w') = collect plugged (w_t w) ++ u
      | Stuck _ _ => True
      end) as Fin2.
    { intros w2 r k C2 T2 Hk Hr. eapply Fin; [exact C2|exact T2|]. rewrite <- app_assoc. eapply use_outside; eauto. }
    clearbody w1. destruct (rc =? HE_ERR_PLUGIN_DROP) eqn:Dr.
    { apply Z.eqb_eq in Dr. subst rc. unfold ret at 1. eapply (Fin2 w1 _ 0%nat); [exact C1|cbn [repeat]; now rewrite app_nil_r|reflexivity|reflexivity]. }
    destruct (rc =? HE_SUCCESS) eqn:Su; cbn [negb orb andb] in Fin2 |- *.
    2:{ unfold ret at 1. eapply (Fin2 w1 _ 0%nat); [exact C1|cbn [repeat]; now rewrite app_nil_r|reflexivity|reflexivity]. }
    destruct (Z.ltb_spec 1500 (len out)) as [Big|Sm]; destruct (Z.leb_spec (len out) 1500); try lia; cbn [andb] in Fin2.
    { unfold ret at 1. eapply (Fin2 w1 _ 0%nat); [exact C1|cbn [repeat]; now rewrite app_nil_r|reflexivity|reflexivity]. }
    match goal with |- match (match ?m w1 with _ => _ end) with _ => _ end => destruct (m w1) as [r w2|] eqn:Cp end; [|exact I].
    apply dtls_copies in Cp. destruct Cp as (k & Hk & C2 & T2). rewrite C1, P10 in Hk. eapply (Fin2 w2 r k); [congruence|rewrite T2, T1; now rewrite <- app_assoc|exact Hk|exact I].
Qed.
Lemma UW_write b : keeps UW T (io_write E hk b).
Proof.
  intros w (P & R). pose proof (@write_use b w P) as Q. destruct (io_write E hk b w) as [r w'|]; [|exact I].
  destruct Q as (Cc & u & O & Cl). split; [now rewrite Cc|]. eapply U2_add; eauto.
Qed.
(** Delivering a packet. *)
Lemma deliver_use s m p w : pparams (w_c w) = pparams c0 ->
  packet_in (e_le E) c0 s m = Some p \/ s = HE_STATE_ONLINE /\ is_frag (s, m) = true ->
  exists rc w' u, deliver E hk p w = Done rc w' /\ w_c w' = w_c w /\ ok (PGot s m :: u) /\ collect plugged (w_t w') = collect plugged (w_t w) ++ u.
Proof.
  intros P Pk. unfold deliver. unfold bind at 1, get at 1. unfold bind at 1.
  destruct (@egress_pass E (c_in_chain (w_c w)) p (len p) w) as (rc & out & l & -> & Ps & _). set (w1 := plugs _ _ _).
  assert (c_in_chain (w_c w) = c_in_chain c0 /\ c_cbs (w_c w) = c_cbs c0) as [Ch Cb] by (unfold pparams in P; split; congruence). rewrite Ch in Ps.
  assert (w_c w1 = w_c w) as C1 by reflexivity. assert (collect plugged (w_t w1) = collect plugged (w_t w) ++ l) as T1.
  { cbn [w1 plugs w_t]. rewrite collect_app. f_equal. eapply pass_only; exact Ps. }
  clearbody w1. pose proof (@use_inside (e_le E) c0 s m p l rc out Pk Ps) as Us.
  assert (forall code : Z, (rc =? HE_SUCCESS) && (len out <=? len p) && ipv4_packet out && cb_inside (c_cbs c0) = false ->
    exists rc w' u, Done code w1 = Done rc w' /\ w_c w' = w_c w /\ ok (PGot s m :: u) /\ collect plugged (w_t w') = collect plugged (w_t w) ++ u) as No.
  { intros code Hb. rewrite Hb, app_nil_r in Us. exists code, w1, l. auto. }
  unfold ret. destruct (Z.eqb_spec rc HE_ERR_PLUGIN_DROP) as [->|Nd]; [apply No; reflexivity|].
  destruct (rc =? HE_SUCCESS); cbn [negb]; [|apply No; reflexivity].
  destruct (Z.ltb_spec (len p) (len out)) as [Lg|Lg]; destruct (Z.leb_spec (len out) (len p)); try lia; cbn [andb] in *; [apply No; reflexivity|].
  rewrite ipv4_valid. unfold bind at 1, lift at 1, ret at 1. destruct (ipv4_packet out); cbn [negb andb] in *; [|apply No; reflexivity].
  unfold bind at 1, get at 1. rewrite C1, Cb. unfold bind, when. destruct (cb_inside (c_cbs c0)); [|apply No; reflexivity].
  unfold notify, bind, emit, ret. eexists _, _, (l ++ [PInside out]). split; [reflexivity|]. split; [cbn [w_c]; congruence|]. split; [exact Us|].
  cbn [w_t collect plugged]. rewrite T1. now rewrite <- app_assoc.
Qed.
Ltac kpush := apply UW_push; [intros; first [reflexivity|match goal with o : wop |- _ => destruct o; first [reflexivity|congruence] end]|assumption].
Ltac kconn := apply UW_conn; [reflexivity|assumption].
Lemma UW_read sz : keeps UW T (io_read sz).
Proof. apply keeps_io_read; auto; intros; first [kpush|kconn]. Qed.
Lemma UW_event e w : io_event e = false -> UW w -> UW (push e w).
Proof. intros H. apply UW_push. now apply io_event_plugged. Qed.
Ltac ks := intros; first [exact I|apply keeps_ret|apply UW_read|apply UW_write|now apply UW_event|kpush|kconn|idtac].
(** Receiving a message. *)
Lemma recv_use w r err d w' : UW w -> wolf_op E hk WRecv w = Done (r, err, d) w' ->
  exists v, UW v /\ w' = push (EWEnd WRecv r err d) v.
Proof.
  intros Hw. unfold wolf_op. unfold bind at 1, emit at 1. fold (push (EWOp WRecv) w). set (w0 := push _ w). assert (UW w0) as H0 by (unfold w0; kpush). clearbody w0.
  unfold bind at 1, get at 1. unfold bind at 1.
  match goal with |- (match ?m w0 with _ => _ end) = _ -> _ => assert (keeps UW T m) as K end.
  { case_if; [|apply keeps_ret]. apply keeps_bind; [apply keeps_log|]. intros t. apply keeps_bind; [apply keeps_strat; ks|]. intros [[a b] c]. apply keeps_ret. }
  specialize (K w0 H0). match goal with |- (match ?m with _ => _ end) = _ -> _ => destruct m as [[[r1 e1] d1] v|]; [|discriminate] end.
  unfold bind, emit, ret. intros H. apply Done_inv in H. destruct H as [H <-]. injection H as <- <- <-. exists v. split; [exact K|reflexivity].
Qed.
Lemma got_message m (r err : Z) v : UW v -> 0 < r -> packet_in (e_le E) c0 (c_state (w_c v)) m = None -> UW (push (EWEnd WRecv r err m) v).
Proof.
  intros (P & R) Hr N. split; [exact P|]. eapply U2_add; [exact (@use_message (e_le E) c0 (c_state (w_c v)) m N)| |exact R].
  cbn [push w_t collect plugged]. destruct (Z.ltb_spec 0 r); [reflexivity|lia].
Qed.
Lemma got_packet m (r : Z) v p : UW v -> 0 < r -> let s := c_state (w_c v) in
  packet_in (e_le E) c0 s m = Some p \/ s = HE_STATE_ONLINE /\ is_frag (s, m) = true ->
  forall w1, pparams (w_c w1) = pparams c0 -> collect plugged (w_t w1) = collect plugged (w_t v) ++ [PGot s m] ->
  match deliver E hk p w1 with Done _ w' => UW w' | Stuck _ _ => True end.
Proof.
  intros (P & R) Hr s Pk w1 P1 T1. destruct (@deliver_use s m p w1 P1 Pk) as (rc & w' & u & -> & C & O & T'). split; [congruence|].
  eapply U2_add; [exact O| |exact R]. rewrite T', T1, <- app_assoc. reflexivity.
Qed.
Lemma UW_message m (r err : Z) v : UW v -> 0 < r -> 0 < len m -> bytes_ok m ->
  match process_message E hk m (push (EWEnd WRecv r err m) v) with Done _ w' => UW w' | Stuck _ _ => True end.
Proof.
  intros Hv Hr Hl Bm. pose proof (@got_message m r err v Hv Hr) as Gm.
  assert (forall p, packet_in (e_le E) c0 (c_state (w_c v)) m = Some p \/ c_state (w_c v) = HE_STATE_ONLINE /\ is_frag (c_state (w_c v), m) = true ->
    forall w1, pparams (w_c w1) = pparams c0 -> collect plugged (w_t w1) = collect plugged (w_t v) ++ [PGot (c_state (w_c v)) m] ->
    match deliver E hk p w1 with Done _ w' => UW w' | Stuck _ _ => True end) as Gp by (intros p; apply (@got_packet m r v p Hv Hr)).
  assert (pparams (w_c v) = pparams c0) as P by exact (proj1 Hv). assert (collect plugged (w_t (push (EWEnd WRecv r err m) v)) = collect plugged (w_t v) ++ [PGot (c_state (w_c v)) m]) as Tw.
  { cbn [push w_t collect plugged]. destruct (Z.ltb_spec 0 r); [reflexivity|lia]. }
  set (w := push (EWEnd WRecv r err m) v) in *. assert (w_c w = w_c v) as Cw by reflexivity. clearbody w. rewrite <- Cw in *. clear Hv.
  assert (c_vmaj (w_c w) = c_vmaj c0 /\ c_vmin (w_c w) = c_vmin c0) as [V1 V2] by (unfold pparams in P; split; congruence).
  unfold process_message. destruct (Z.ltb_spec (len m) sizeof_msg_hdr) as [Y|_]; [unfold sizeof_msg_hdr in Y; lia|].
  rewrite ld8_ok by lia. change (nth (Z.to_nat 0) m 0) with (msg_type m). unfold bind at 1, lift at 1, ret at 1. unfold bind at 1, get at 1.
  assert (forall A (k : M A), keeps UW T k -> msg_type m <> HE_MSGID_DATA -> msg_type m <> HE_MSGID_DEPRECATED_13 -> match k w with Done _ w' => UW w' | Stuck _ _ => True end) as Other.
  { intros A k Kk N1 N2. apply Kk, Gm. unfold packet_in. apply Z.eqb_neq in N1, N2. rewrite N1, N2. cbn [andb]. now destruct (negb _). }
  destruct (Z.eqb_spec (msg_type m) HE_MSGID_DATA) as [Ty|Nd]; [|destruct (Z.eqb_spec (msg_type m) HE_MSGID_DEPRECATED_13) as [Ty|N13]; [|destruct (Z.eqb_spec (msg_type m) HE_MSGID_DATA_WITH_FRAG) as [Ty|Nf]]].
  - rewrite Ty. cbn [Z.eqb Pos.eqb HE_MSGID_NOOP HE_MSGID_PING HE_MSGID_PONG HE_MSGID_AUTH HE_MSGID_DATA].
    unfold packet_in in *. rewrite Ty in *. change (HE_MSGID_DATA =? HE_MSGID_DATA) with true in *. change (HE_MSGID_DATA =? HE_MSGID_DEPRECATED_13) with false in *. cbn [andb] in *.
    unfold handle_data. unfold bind at 1, get at 1. destruct (negb (c_state (w_c w) =? HE_STATE_ONLINE)); [now apply Gm|].
    change sizeof_data with 3. assert (0 <= data_length (e_le E) (c_vmaj c0) (c_vmin c0) m) as Dn.
    { unfold data_length, field16, field16le. pose proof (bytes_ok_nth 1 Bm). pose proof (bytes_ok_nth 2 Bm). unfold byte_ok in *. destruct (_ && _); lia. }
    destruct (Z.ltb_spec (len m) 3) as [L3|L3].
    { destruct (Z.leb_spec (3 + data_length (e_le E) (c_vmaj c0) (c_vmin c0) m) (len m)); [lia|]. now apply Gm. }
    destruct (@field16_ok E m 1 Bm) as (raw & F & N & _); [lia|lia|]. change (Z.to_nat 1) with 1%nat in *. rewrite F. unfold bind at 1, lift at 1, ret at 1. rewrite V1, V2.
    assert ((if (c_vmaj c0 =? 1) && (c_vmin c0 =? 0) then raw else ntohs (e_le E) raw) = data_length (e_le E) (c_vmaj c0) (c_vmin c0) m) as ->.
    { unfold data_length. destruct ((c_vmaj c0 =? 1) && (c_vmin c0 =? 0)); cbn [andb]; [|exact N].
      rewrite ldh16_ok in F by (auto; lia). injection F as <-. unfold host16, field16, field16le. change (Z.to_nat 1) with 1%nat. change (1 + 1)%nat with 2%nat.
      change (Pos.to_nat 1) with 1%nat. destruct (e_le E); lia. }
    destruct (Z.ltb_spec (len m - 3) (data_length (e_le E) (c_vmaj c0) (c_vmin c0) m)); destruct (Z.leb_spec (3 + data_length (e_le E) (c_vmaj c0) (c_vmin c0) m) (len m)); try lia; [now apply Gm|].
    rewrite ldn_ok by lia. unfold bind at 1, lift at 1, ret at 1. apply Gp; auto.
  - rewrite Ty. cbn [Z.eqb Pos.eqb HE_MSGID_NOOP HE_MSGID_PING HE_MSGID_PONG HE_MSGID_AUTH HE_MSGID_DATA HE_MSGID_CONFIG_IPV4 HE_MSGID_AUTH_RESPONSE
      HE_MSGID_AUTH_RESPONSE_WITH_CONFIG HE_MSGID_GOODBYE HE_MSGID_EXTENSION HE_MSGID_DEPRECATED_13].
    unfold packet_in in *. rewrite Ty in *. change (HE_MSGID_DEPRECATED_13 =? HE_MSGID_DATA) with false in *. change (HE_MSGID_DEPRECATED_13 =? HE_MSGID_DEPRECATED_13) with true in *. cbn [andb] in *.
    unfold handle_deprecated_13. unfold bind at 1, get at 1. destruct (negb (c_state (w_c w) =? HE_STATE_ONLINE)); [now apply Gm|].
    change sizeof_deprecated_13 with 5. assert (0 <= field16 m 1) as Dn.
    { unfold field16. pose proof (bytes_ok_nth 1 Bm). pose proof (bytes_ok_nth 2 Bm). unfold byte_ok in *. lia. }
    destruct (Z.ltb_spec (len m) 5) as [L3|L3].
    { destruct (Z.leb_spec (5 + field16 m 1) (len m)); [lia|]. now apply Gm. }
    destruct (@field16_ok E m 1 Bm) as (raw & F & N & _); [lia|lia|]. change (Z.to_nat 1) with 1%nat in *. rewrite F. unfold bind at 1, lift at 1, ret at 1. rewrite N.
    destruct (Z.ltb_spec (len m - 5) (field16 m 1)); destruct (Z.leb_spec (5 + field16 m 1) (len m)); try lia; [now apply Gm|].
    rewrite ldn_ok by lia. unfold bind at 1, lift at 1, ret at 1. apply Gp; auto.
  - rewrite Ty. cbn [Z.eqb Pos.eqb HE_MSGID_NOOP HE_MSGID_PING HE_MSGID_PONG HE_MSGID_AUTH HE_MSGID_DATA HE_MSGID_CONFIG_IPV4 HE_MSGID_AUTH_RESPONSE
      HE_MSGID_AUTH_RESPONSE_WITH_CONFIG HE_MSGID_GOODBYE HE_MSGID_EXTENSION HE_MSGID_DEPRECATED_13 HE_MSGID_SERVER_CONFIG HE_MSGID_DATA_WITH_FRAG].
    assert (UW w) as Gu.
    { apply Gm. unfold packet_in. rewrite Ty. change (HE_MSGID_DATA_WITH_FRAG =? HE_MSGID_DATA) with false. change (HE_MSGID_DATA_WITH_FRAG =? HE_MSGID_DEPRECATED_13) with false. cbn [andb]. now destruct (negb _). }
    unfold handle_frag. unfold bind at 1, get at 1. destruct (Z.eqb_spec (c_state (w_c w)) HE_STATE_ONLINE) as [On|]; cbn [negb]; [|exact Gu].
    destruct (len m <? sizeof_data_frag); [exact Gu|].
    do 3 (unfold bind at 1; match goal with |- match (match lift ?x w with _ => _ end) with _ => _ end => destruct x; unfold lift at 1; [unfold ret at 1|exact I] end; try (case_if; [exact Gu|])).
    unfold bind at 1, get at 1. destruct (c_frag_tbl (w_c w)) as [tbl|]; [|exact Gu].
    do 4 (unfold bind at 1, ask at 1; unfold bind at 1, log at 1; unfold bind at 1, emit at 1; unfold ret at 1).
    match goal with |- match _ ?v with _ => _ end => set (w1 := v) end.
    assert (w_c w1 = w_c w) as C1 by reflexivity. assert (collect plugged (w_t w1) = collect plugged (w_t w)) as T1 by (cbn [w1 w_t collect plugged]; now rewrite !app_nil_r). clearbody w1.
    assert (UW w1) as Gu1. { destruct Gu as (Pg & us & Hc & Ho). split; [congruence|]. exists us. split; [congruence|exact Ho]. }
    unfold bind at 1. destruct (ldn m sizeof_data_frag _) as [data|]; unfold lift at 1; [unfold ret at 1|exact I].
    unfold bind at 1. match goal with |- match (match lift ?x _ with _ => _ end) with _ => _ end => destruct x as [[[rc0 asm] tb1]|]; unfold lift at 1; [unfold ret at 1|exact I] end.
    unfold bind at 1, upd at 1. destruct asm as [packet|].
    2:{ unfold ret. apply (@UW_conn (set_frag_tbl (Some tb1)) w1); [reflexivity|exact Gu1]. }
    unfold bind at 1. match goal with |- context [deliver E hk packet ?v] => pose proof (Gp packet) as D; specialize (fun a b c => D a v b c); destruct (deliver E hk packet v) as [rc2 w2|]; [|exact I] end.
    assert (UW w2) as D2.
    { apply D; [right; split; [exact On|]; unfold is_frag; cbn [snd]; now rewrite Ty|cbn [w_c]; rewrite <- P, <- C1; reflexivity|cbn [w_t]; congruence]. }
    unfold bind, upd, ret. apply (@UW_conn (fun c => set_frag_tbl (match c_frag_tbl c with None => None | Some t => Some (table_delete t _) end) c) w2); [reflexivity|exact D2].
  - apply Other; [|assumption..]. apply Z.eqb_neq in Nd, N13, Nf. rewrite ?Nd, ?N13, ?Nf.
    repeat case_if; try apply keeps_ret; [apply keeps_handle_ping|apply keeps_handle_pong|apply keeps_handle_auth|apply keeps_handle_config|apply keeps_handle_server_config]; ks.
Qed.
Lemma UW_verify : keeps UW T (verify_connection E hk).
Proof.
  apply verify_kept.
  - intros w r err d w' Hw R. destruct (recv_use Hw R) as (v & Hv & ->). destruct (Z.leb_spec r 0) as [Hr|Hr].
    + apply UW_push; [|exact Hv]. intros s. cbn [plugged]. destruct (Z.ltb_spec 0 r); [lia|reflexivity].
    + pose proof (recv_data R) as [Bd Ld]. now apply UW_message; auto.
  - intros v. apply keeps_upd; ks.
  - apply keeps_upd; ks.
  - apply keeps_generate_other; ks; reflexivity.
  - apply keeps_wolf_op'; ks.
  - apply keeps_change_conn_state; ks.
  - apply keeps_update_timeout; ks.
  - apply keeps_renegotiate; ks.
  - apply keeps_check; ks.
Qed.
(** Then the parameters change, but no chain is used any more. *)
Ltac k2push := apply U2_push; [intros; first [reflexivity|match goal with o : wop |- _ => destruct o; first [reflexivity|congruence] end]|assumption].
Lemma U2_event e w : io_event e = false -> U2 w -> U2 (push e w).
Proof. intros H. apply U2_push. now apply io_event_plugged. Qed.
Ltac k2 := intros; first [exact I|apply keeps_ret|now apply U2_event|k2push|assumption|idtac].
Definition into {A} (m : M A) : Prop := forall w, UW w -> match m w with Done _ w' => U2 w' | Stuck _ _ => True end.
Lemma into_bind R S (m : M R) (k : R -> M S) : keeps UW T m -> (forall a, into (k a)) -> into (bind m k).
Proof. intros K1 K2 w H. unfold bind. specialize (K1 w H). destruct (m w) as [a w'|]; [now apply K2|exact I]. Qed.
Lemma into_keeps R (m : M R) : keeps UW T m -> into m.
Proof. intros K w H. specialize (K w H). destruct (m w); [exact (proj2 K)|exact I]. Qed.
Lemma into_keeps2 R (m : M R) : keeps U2 T m -> into m.
Proof. intros K w H. apply K. exact (proj2 H). Qed.
Lemma U2_state s : s <> HE_STATE_LINK_UP -> keeps U2 T (change_conn_state E hk s).
Proof.
  intros N. apply Z.eqb_neq in N. unfold change_conn_state. rewrite N. apply keeps_bind.
  - unfold set_conn_state. apply keeps_bind; [apply keeps_get|]. intros st. case_if; [apply keeps_ret|].
    apply keeps_bind; [apply keeps_upd; k2|]. intros _. apply keeps_bind; [apply keeps_get|]. intros k. apply keeps_bind; [|intros; apply keeps_ret].
    apply keeps_when. unfold notify. apply keeps_bind; [apply keeps_emit; intros; k2push|]. intros _. apply keeps_ret.
  - intros b. rewrite andb_false_r. apply keeps_ret.
Qed.
Lemma into_disconnect : into (disconnect E hk).
Proof.
  unfold disconnect. apply into_bind; [apply keeps_get|]. intros c. repeat (case_if; [apply into_keeps, keeps_ret|]).
  apply into_bind; [apply keeps_change_conn_state; ks|]. intros _. apply into_bind; [apply keeps_send_goodbye; ks|]. intros _.
  apply into_bind; [apply keeps_wolf_op'; ks|]. intros _. apply into_keeps2. apply keeps_bind; [apply keeps_upd; k2|]. intros _.
  apply keeps_bind; [apply U2_state; discriminate|]. intros _. apply keeps_ret.
Qed.
(** What follows the ingress pass of a received buffer. *)
Definition outside_rest (data : bytes) : M Z :=
  let! ct := get c_ctype in
  if ct =? HE_CONNECTION_TYPE_DATAGRAM then outside_packet_received E hk data
  else if ct =? HE_CONNECTION_TYPE_STREAM then outside_stream_received E hk data
  else ret HE_ERR_INVALID_CONN_STATE.
Lemma UW_outside_rest b : keeps UW T (outside_rest b).
Proof.
  unfold outside_rest. apply keeps_bind; [apply keeps_get|]. intros ct. case_if; [|case_if; [|apply keeps_ret]].
  - unfold outside_packet_received. case_if; [apply keeps_ret|].
    repeat (apply keeps_bind; [first [apply keeps_lift; auto; fail|apply keeps_get; fail]|intro]; try (case_if; [apply keeps_ret|])).
    apply keeps_bind; [apply keeps_upd; ks|]. intros _. apply keeps_bind; [apply UW_verify|]. intros rc.
    apply keeps_bind; [apply keeps_upd; ks|]. intros _. case_if; [apply keeps_ret|]. apply keeps_session_in; ks.
  - unfold outside_stream_received. apply keeps_bind; [apply keeps_get|]. intros r. case_if.
    { apply keeps_bind; [apply keeps_upd; ks|]. intros _. apply keeps_ret. }
    apply keeps_bind; [apply keeps_upd; ks|]. intros _. apply keeps_bind; [apply UW_verify|]. intros rc.
    apply keeps_bind; [apply keeps_upd; ks|]. intros _. apply keeps_ret.
Qed.
(** Calls that do not begin with an ingress pass. *)
Lemma into_op o : match o with OClientConnect _ _ _ | OServerConnect _ _ _ | OInside _ | OOutside _ => False | _ => True end -> into (api_body E hk o).
Proof.
  intros N. destruct o; try destruct N; cbn [api_body].
  - apply into_disconnect.
  - apply into_keeps, keeps_nudge; ks.
  - apply into_keeps, keeps_keepalive; ks.
  - apply into_keeps, keeps_send_server_config; ks.
  - apply into_keeps. apply keeps_bind; [apply keeps_upd; ks|intros _; apply keeps_ret].
  - apply into_keeps, keeps_start_pmtu; ks.
  - apply into_keeps, keeps_pm_timeout; ks.
  - apply into_keeps, keeps_rotate; ks.
  - apply into_keeps, keeps_set_session; ks.
  - apply into_keeps, keeps_set_username; ks.
  - apply into_keeps, keeps_set_password; ks.
  - apply into_keeps, keeps_set_token; ks.
  - apply into_keeps, keeps_set_auth_buffer; ks.
  - apply into_keeps, keeps_set_mtu; ks.
  - apply into_keeps2. apply keeps_bind; [apply keeps_upd; k2|intros _; apply keeps_ret].
  - apply into_keeps, keeps_set_sni; ks.
Qed.
Lemma UW_rest x : keeps UW T (connect_rest E x).
Proof.
  unfold connect_rest. apply keeps_bind; [apply keeps_settings2; ks|]. intros res. case_if; [apply keeps_ret|].
  apply keeps_bind; [apply keeps_change_conn_state; ks|]. intros _. apply keeps_bind; [apply keeps_wolf_op'; ks|]. intros [[r err] d].
  repeat case_if; try apply keeps_ret; (apply keeps_bind; [apply keeps_change_conn_state; ks|intros _]); (apply keeps_bind; [apply keeps_update_timeout; ks|intros _]); apply keeps_ret.
Qed.
Lemma UW_send m : keeps UW T (send_message E hk m).
Proof.
  unfold send_message. apply keeps_bind; [apply keeps_wolf_op'; ks|]. intros [[r err] d]. repeat case_if; try apply keeps_ret.
  apply keeps_bind; [apply keeps_upd; ks|intros _; apply keeps_ret].
Qed.
Lemma UW_frag_loop fuel p id : forall o n f, keeps UW T (frag_loop E hk fuel p id o n f).
Proof. intros. apply keeps_frag_loop; ks. Qed.
End U.

(** ** he_conn_inside_packet_received *)
Section In.
Variable E : env.
Notation hk := (@ret unit tt).
Definition inside_rest (c : conn) (packet : bytes) : M Z :=
  if c_mtu c - 114 <? len packet then ret HE_ERR_FAILED
  else if negb (should_fragment (c_ctype c) (path_mtu c) (len packet)) then
    if HE_MAX_WIRE_MTU <? len packet + sizeof_data then ret HE_ERR_FAILED else
    let actual := data_packet_length (c_padding c) (len packet) in
    let! b := lift (build_data (e_le E) (c_vmaj c) (c_vmin c) packet) in
    let! msg := lift (ldn b 0 (actual + sizeof_data)) in
    send_message E hk msg
  else frag_and_send E hk packet (u16 (path_mtu c + sizeof_data - sizeof_data_frag)).
Lemma inside_plug p w rc w' : bytes_ok p -> cok (w_c w) -> 115 <= c_mtu (w_c w) ->
  inside_packet_received E hk p w = Done rc w' ->
  match refused_early (w_c w) p with
  | Some code => rc = code /\ w' = w
  | None =>
    exists p' rp out l, mss_clamped (path_mtu (w_c w) - 40) p p' /\ ipv4_packet p' = true /\ bytes_ok p' /\
      552 <= path_mtu (w_c w) <= 1416 /\ len p <= c_mtu (w_c w) - 114 /\
      pass true (c_mtu (w_c w) - 114) (in_order true (c_in_chain (w_c w))) p' l rp out /\ bytes_ok out /\
      let w1 := plugs (c_state (w_c w)) l w in
      if rp =? HE_ERR_PLUGIN_DROP then rc = HE_SUCCESS /\ w' = w1
      else if rp =? HE_SUCCESS then inside_rest (w_c w) out w1 = Done rc w'
      else rc = HE_ERR_FAILED /\ w' = w1
  end.
Proof.
  intros B K Hm. unfold inside_packet_received. unfold bind at 1, get at 1. unfold refused_early.
  destruct (effective_path K) as [Eff R]. pose proof (ok_mtu K) as Mr. rewrite Eff.
  destruct (negb (c_state (w_c w) =? HE_STATE_ONLINE)); [intros [= <- <-]; auto|]. change HE_IPV4_HEADER_SIZE with 20.
  destruct (Z.ltb_spec (len p) 20) as [|L20]; [intros [= <- <-]; auto|].
  assert (u64 (c_mtu (w_c w) - HE_PACKET_OVERHEAD) = c_mtu (w_c w) - 114) as -> by (apply Z.mod_small; change HE_PACKET_OVERHEAD with 114; lia).
  destruct (Z.ltb_spec (c_mtu (w_c w) - 114) (len p)) as [|Lm]; [intros [= <- <-]; auto|].
  rewrite ipv4_valid. unfold bind at 1, lift at 1, ret at 1.
  assert (ipv4_packet p = (ip_version p =? 4)) as IV by (unfold ipv4_packet; destruct (Z.leb_spec 20 (len p)); [reflexivity|lia]).
  rewrite IV. destruct (negb (ip_version p =? 4)) eqn:V4; [intros [= <- <-]; auto|]. apply negb_false_iff in V4.
  change HE_MSS_OVERHEAD with 40.
  assert (u16 (path_mtu (w_c w) - 40) = path_mtu (w_c w) - 40) as -> by (apply Z.mod_small; lia).
  destruct (clamp_total (e_le E) B (mss := path_mtu (w_c w) - 40)) as (rc1 & p' & C & L' & B'); [lia|].
  assert (0 <= path_mtu (w_c w) - 40 < 65536) as Hmss by lia. pose proof (clamp_rc (e_le E) B Hmss C) as Crc.
  rewrite C. unfold bind at 1, lift at 1, ret at 1.
  destruct (Z.ltb_spec (path_mtu (w_c w) - 40) 512) as [Small|Big].
  { destruct (Z.eqb_spec rc1 HE_SUCCESS) as [->|N]; [exfalso; destruct Crc as [X _]; specialize (X eq_refl); lia|]. cbn [negb].
    intros [= <- <-]. split; [|reflexivity]. unfold clamp_mss in C. destruct (len p =? 0) eqn:Z0; [apply Z.eqb_eq in Z0; lia|].
    change MIN_PLPMTU with 512 in C. destruct (Z.ltb_spec (path_mtu (w_c w) - 40) 512); [|lia]. cbn [orb] in C. now injection C as <- _. }
  assert (rc1 = HE_SUCCESS) as -> by (apply Crc; apply Z.eqb_eq in V4; lia). change (negb (HE_SUCCESS =? HE_SUCCESS)) with false. cbv iota.
  assert (512 <= path_mtu (w_c w) - 40 <= 1500) as Hmss2 by lia.
  destruct (clamp_clamped B Hmss2 C) as (MC & _ & IP).
  unfold bind at 1. destruct (@ingress_pass E (c_in_chain (w_c w)) p' (c_mtu (w_c w) - 114) w) as (rp & out & l & -> & Ps & Bo).
  intros H. exists p', rp, out, l. split; [exact MC|]. split; [apply IP; congruence|]. split; [exact B'|]. split; [lia|]. split; [lia|]. split; [exact Ps|]. split; [auto|].
  cbv zeta. destruct (rp =? HE_ERR_PLUGIN_DROP); [apply Done_inv in H; destruct H as [<- <-]; auto|].
  destruct (rp =? HE_SUCCESS); cbn [negb] in H; [exact H|]. apply Done_inv in H; destruct H as [<- <-]; auto.
Qed.
Lemma inside_rest_sends out w rc w' : cok (w_c w) -> bytes_ok out -> 552 <= path_mtu (w_c w) <= 1416 ->
  inside_rest (w_c w) out w = Done rc w' ->
  exists l, during wrote w w' l /\ during sent w w' (map (fun x => fst (fst x)) l) /\ sending (e_le E) (w_c w) out l rc.
Proof.
  intros K B Pm. unfold inside_rest, sending. pose proof (ok_mtu K) as Mr. pose proof (len_nonneg out) as Lo.
  assert (forall rr, Done rr w = Done rc w' -> exists l, during wrote w w' l /\ during sent w w' (map (fun x => fst (fst x)) l) /\ l = [] /\ rc = rr) as Nil.
  { intros rr H. apply Done_inv in H. destruct H as [<- <-]. exists []. split; [apply during_nil; reflexivity|]. split; [apply during_nil; reflexivity|]. auto. }
  destruct (Z.ltb_spec (c_mtu (w_c w) - 114) (len out)) as [|Lm]; [apply Nil|].
  assert (should_fragment (c_ctype (w_c w)) (path_mtu (w_c w)) (len out) = must_cut (w_c w) out) as ->.
  { unfold should_fragment, must_cut, u16. now rewrite (Z.mod_small (len out)) by lia. }
  change HE_MAX_WIRE_MTU with 1500 at 1. change sizeof_data with 3 at 1. fold (frag_unit (w_c w)).
  destruct (must_cut (w_c w) out) eqn:MCut; cbn [negb andb].
  - intros F. unfold frag_and_send in F. assert (u16 (len out) = len out) as U0 by (apply Z.mod_small; lia). rewrite !U0 in F.
    assert (u16 (path_mtu (w_c w) + sizeof_data - sizeof_data_frag) = path_mtu (w_c w) - 4) as U.
    { unfold sizeof_data, sizeof_data_frag. unfold u16. rewrite Z.mod_small; lia. }
    rewrite U in F. fold (frag_unit (w_c w)) in F. unfold must_cut in MCut. apply andb_true_iff in MCut as [_ MCut]. apply Z.ltb_lt in MCut.
    assert (0 < frag_unit (w_c w) <= path_mtu (w_c w) - 4) as FU.
    { unfold frag_unit. pose proof (Z.mul_div_le (path_mtu (w_c w) - 4) 8). assert (1 <= (path_mtu (w_c w) - 4) / 8) by (apply Z.div_le_lower_bound; lia). lia. }
    destruct (Z.leb_spec (len out) (frag_unit (w_c w))); [lia|]. unfold bind at 1, get at 1 in F. unfold bind at 1, upd at 1 in F.
    destruct (@chop_exists (frag_unit (w_c w)) out) as (cs & Hcs); [lia|].
    pose proof (@frag_loop_seq E out (c_frag_next (w_c w)) (frag_unit (w_c w)) (ok_frag_next K)) as L.
    match type of F with frag_loop _ _ ?fuel _ _ _ ?n _ ?v = _ => specialize (fun a b c => L a b c fuel cs 0 v rc w') end.
    destruct L as (l & D1 & D2 & W & _).
    + lia.
    + change HE_MAX_WIRE_MTU with 1500. lia.
    + lia.
    + lia.
    + unfold slice. rewrite Z.sub_0_r. change (Z.to_nat 0) with 0%nat. cbn [skipn]. unfold len. rewrite Nat2Z.id, firstn_all. exact Hcs.
    + lia.
    + now rewrite Z.sub_0_r.
    + exists l. split; [exact D1|]. split; [exact D2|]. exists cs. auto.
  - destruct (Z.ltb_spec 1500 (len out + 3)); destruct (Z.ltb_spec 1497 (len out)); try lia; [apply Nil|].
    rewrite padded_size_ok. rewrite build_data_ok by (change HE_MAX_WIRE_MTU with 1500; lia).
    pose proof (@padded_size_bounds (c_padding (w_c w)) (len out)).
    unfold bind at 1, lift at 1, ret at 1. rewrite ldn_ok.
    + unfold bind at 1, lift at 1, ret at 1.
      match goal with |- send_message _ _ ?a _ = _ -> _ => assert (a = data_message (e_le E) (c_vmaj (w_c w)) (c_vmin (w_c w)) out (padded_size (c_padding (w_c w)) (len out) - len out)) as -> end.
      { unfold data_message. cbn [app]. rewrite zeros_0, app_nil_r, <- app_assoc.
        rewrite (@zeros_split (padded_size (c_padding (w_c w)) (len out) - len out) (HE_MAX_WIRE_MTU - 3 - len out)) by (change HE_MAX_WIRE_MTU with 1500; lia).
        match goal with |- slice (?h :: ?x ++ ?y ++ ?z1 ++ ?z2) _ _ = _ => change (h :: x ++ y ++ z1 ++ z2) with ((h :: x) ++ y ++ z1 ++ z2) end.
        rewrite !app_assoc. rewrite slice_app_l; [cbn [app]; now rewrite <- !app_assoc|].
        rewrite !len_app, len_cons, len_zeros by lia. unfold data_length_field.
        destruct (_ && _); [rewrite len_bytes16|rewrite len_be16]; unfold sizeof_data; lia. }
      intros F. destruct (@send_writes E _ _ _ _ F) as (l & D & W). exists l. exact (conj D W).
    + lia.
    + unfold sizeof_data. lia.
    + rewrite !len_app, len_zeros by (change HE_MAX_WIRE_MTU with 1500; lia). unfold data_message. rewrite len_cons, !len_app, zeros_0, len_nil. unfold sizeof_data.
      unfold data_length_field. change HE_MAX_WIRE_MTU with 1500. destruct (_ && _); [rewrite len_bytes16|rewrite len_be16]; lia.
Qed.
End In.

(** ** A whole call *)
Lemma use_ext le c c' u : pparams c = pparams c' -> use le c u -> use le c' u.
Proof.
  intros P. unfold pparams in P. assert (c_vmaj c = c_vmaj c' /\ c_vmin c = c_vmin c' /\ c_aggr c = c_aggr c' /\ c_wolf_ctx c = c_wolf_ctx c' /\
    c_io c = c_io c' /\ c_in_chain c = c_in_chain c' /\ c_out_chain c = c_out_chain c' /\ c_cbs c = c_cbs c') as (P1 & P2 & P3 & P4 & P5 & P6 & P7 & P8) by (repeat split; congruence).
  intros [buf p l rc out n r Fr Ps Hn Hr|buf|s m p l rc out Pk Ps|s m Pk].
  - rewrite P7 in Ps. rewrite P8 in Hn. eapply use_outside; eauto. unfold framed in *. rewrite <- P1, <- P2, <- P3, <- P4, <- P5. exact Fr.
  - apply use_refused.
  - rewrite P8. apply use_inside; [|now rewrite <- P6]. unfold packet_in in *. now rewrite <- P1, <- P2.
  - apply use_message. unfold packet_in in *. now rewrite <- P1, <- P2.
Qed.
Section C.
Variable E : env.
Notation hk := (@ret unit tt).
Notation T := (fun _ : world => True).
Variable X : list plug_item.
Definition PN (w : world) : Prop := collect plugged (w_t w) = X.
Lemma PN_push e w : (forall s, plugged s e = []) -> PN w -> PN (push e w).
Proof. unfold PN. intros H P. cbn [push w_t collect]. now rewrite H, app_nil_r. Qed.
Ltac kn := intros; first [exact I|apply keeps_ret|apply PN_push; [now apply io_event_plugged|assumption]|assumption|idtac].
Definition pends {A} (m : M A) : Prop := forall w, PN w -> match m w with
  | Done _ w' => 0 <= c_vmaj (w_c w') < 256 -> 0 <= c_vmin (w_c w') < 256 ->
      exists us, collect plugged (w_t w') = X ++ concat us /\ Forall (use (e_le E) (w_c w')) us
  | Stuck _ _ => True end.
Lemma pends_bind A B (m : M A) (k : A -> M B) : keeps PN T m -> (forall a, pends (k a)) -> pends (bind m k).
Proof. intros K1 K2 w H. unfold bind. specialize (K1 w H). destruct (m w) as [a w'|]; [now apply K2|exact I]. Qed.
Lemma pends_ret A (a : A) : pends (ret a).
Proof. intros w H _ _. exists []. cbn. rewrite app_nil_r. auto. Qed.
Lemma pends_rest x : pends (connect_rest E x).
Proof.
  intros w Q. pose (IP := fun v : world => pparams (w_c v) = pparams (w_c w)).
  assert (keeps IP T (connect_rest E x)) as KP.
  { assert (forall e v, IP v -> IP (push e v)) as Pp by auto.
    assert (forall sz, keeps IP T (io_read sz)) as Pr by (intros; apply keeps_io_read; auto).
    assert (forall b, keeps IP T (io_write E hk b)) as Pw by (intros; apply keeps_io_write; intros; auto; apply keeps_ret).
    assert (forall s, keeps IP T (change_conn_state E hk s)) as Pc by (intros; apply keeps_change_conn_state; intros; auto; apply keeps_ret).
    assert (keeps IP T (update_timeout E hk)) as Pu by (intros; apply keeps_update_timeout; intros; auto; apply keeps_ret).
    unfold connect_rest. apply keeps_bind; [apply keeps_settings2; auto|]. intros res. case_if; [apply keeps_ret|].
    apply keeps_bind; [apply Pc|]. intros _. apply keeps_bind; [apply keeps_wolf_op'; intros; auto; apply keeps_ret|]. intros [[r err] d].
    repeat case_if; try apply keeps_ret; (apply keeps_bind; [apply Pc|intros _]); (apply keeps_bind; [apply Pu|intros _]); apply keeps_ret. }
  specialize (KP w eq_refl). pose proof (fun a b => @UW_rest E (w_c w) X a b x w) as K.
  destruct (connect_rest E x w) as [rc w'|]; [|exact I]. unfold IP in KP. intros V1 V2.
  assert (c_vmaj (w_c w) = c_vmaj (w_c w') /\ c_vmin (w_c w) = c_vmin (w_c w')) as (B' & C') by (unfold pparams in KP; split; congruence).
  destruct K as (_ & us & Hc & Ho); rewrite ?B', ?C'; auto.
  { split; [reflexivity|]. exists []. cbn. rewrite app_nil_r. auto. }
  exists us. split; [exact Hc|]. eapply Forall_impl; [|exact Ho]. intros u. now apply use_ext.
Qed.
Lemma pends_connect x i p : pends (internal_connect E hk x i p).
Proof.
  unfold internal_connect. apply pends_bind; [apply keeps_configure; kn|]. intros res. case_if; [apply pends_ret|].
  apply pends_bind; [apply keeps_ask; [kn|reflexivity]|]. intros v. apply pends_bind; [apply keeps_upd; kn|]. intros _. case_if; [apply pends_ret|].
  apply pends_bind; [apply keeps_settings; kn|]. intros res2. case_if; [apply pends_ret|].
  apply pends_bind; [apply keeps_upd; kn|]. intros _. apply pends_rest.
Qed.
Lemma pends_client x i p : pends (client_connect E hk x i p).
Proof.
  unfold client_connect. repeat (apply pends_bind; [kn; first [apply keeps_get|apply keeps_lift; auto|apply keeps_upd; kn]|intro]; try (case_if; [apply pends_ret|])). apply pends_connect.
Qed.
Lemma pends_server x i p : pends (server_connect E hk x i p).
Proof.
  intros w Q. unfold server_connect. unfold bind at 1, get at 1. destruct (negb (is_valid_server x _ =? HE_SUCCESS)); [now apply pends_ret|].
  unfold bind at 1, upd at 1. unfold bind at 1.
  match goal with |- match (match internal_connect _ _ _ _ _ ?v with _ => _ end) with _ => _ end => pose proof (@pends_connect x i p v Q) as Ic; destruct (internal_connect E hk x i p v) as [res w2|]; [|exact I] end.
  match goal with |- match ?m with _ => _ end => destruct m as [r3 w3|] eqn:Bd; [|exact I] end. intros V1 V2.
  assert (exists f, w_c w3 = set_session f (w_c w2) /\ collect plugged (w_t w3) = collect plugged (w_t w2)) as (f & C1 & T1).
  { assert (forall c : conn, c = set_session (c_session c) c) as Id by (intros []; reflexivity).
    destruct (negb (res =? HE_SUCCESS)); [apply Done_inv in Bd; destruct Bd as [_ <-]; eexists; split; [apply Id|reflexivity]|].
    unfold generate_session_id, ask, bind, log, emit, upd, ret in Bd. destruct (negb (_ =? 0)).
    - injection Bd as _ <-. cbn [w_c w_t collect plugged]. eexists. split; [apply Id|now rewrite app_nil_r].
    - injection Bd as _ <-. cbn [w_c w_t collect plugged]. eexists. split; [reflexivity|now rewrite !app_nil_r]. }
  rewrite C1 in V1, V2. destruct (Ic V1 V2) as (us & D & F). exists us. rewrite T1. split; [exact D|].
  eapply Forall_impl; [|exact F]. intros u. apply use_ext. rewrite C1. reflexivity.
Qed.
End C.
