(** C17: plugin chains. *)
From Verif Require Import Base Codes Ctx Config Mss MssSpec MssProofs Frag FragSpec
  Wire WireSpec ConnState Conn ConnSpec HistSpec CallSpec MsgSpec ConnSteps Hist ConnWp ConnWpApi Frame Seq SeqInside SeqLoop SeqApi SeqWire Scenario
  Props_Auth Props_Data Props_Size Props_Wire PlugSpec SeqPlug.
Unset Strict Implicit.

(** The ingress pass a call begins with: the inside chain sees the packet the
    host hands in (its MSS clamped), the outside chain the buffer received; other
    calls begin with none. *)
Definition first_pass (c : conn) (o : op) (pre : list plug_item) : Prop :=
  match o with
  | OInside p =>
    match refused_early c p with
    | Some _ => pre = []
    | None => exists p' rp out, mss_clamped (path_mtu c - 40) p p' /\ pass true (c_mtu c - 114) (in_order true (c_in_chain c)) p' pre rp out
    end
  | OOutside b =>
    if (c_state c =? HE_STATE_DISCONNECTING) || (c_state c =? HE_STATE_DISCONNECTED) then pre = []
    else exists rp out, pass true (len b) (in_order true (c_out_chain c)) b pre rp out
  | _ => pre = []
  end.

(** ** Proofs *)
Lemma plugs_plugged b cap ids d l rp out s w : pass b cap ids d l rp out -> during plugged w (plugs s l w) l.
Proof. intros P. unfold during, plugs. cbn [w_t]. rewrite collect_app. f_equal. eapply pass_only; exact P. Qed.
Lemma plugs_other A (f : Z -> ev -> list A) s l w : (forall s b i d c, f s (EPlugin b i d c) = []) -> (forall s r d, f s (EPluginRet r d) = []) -> during f w (plugs s l w) [].
Proof. intros H1 H2. apply during_nil. cbn [plugs w_t]. rewrite collect_app, collect_entries by assumption. now rewrite app_nil_r. Qed.
Lemma inside_rest_uses E out w rc w' : cok (w_c w) -> inside_rest E (w_c w) out w = Done rc w' ->
  exists us, during plugged w w' (concat us) /\ Forall (use (e_le E) (w_c w)) us.
Proof.
  intros K H. assert (keeps (UW E (w_c w) (collect plugged (w_t w))) (fun _ => True) (inside_rest E (w_c w) out)) as Kp.
  { unfold inside_rest. repeat case_if; try apply keeps_ret.
    - apply keeps_bind; [apply keeps_lift; auto|]. intros b. apply keeps_bind; [apply keeps_lift; auto|]. intros m. apply UW_send; apply K.
    - unfold frag_and_send. cbv zeta. case_if; [apply keeps_ret|]. apply keeps_bind; [apply keeps_get|]. intros id.
      apply keeps_bind; [apply keeps_upd; intros v Hv; apply UW_conn; [reflexivity|exact Hv]|]. intros _. apply UW_frag_loop; apply K. }
  specialize (Kp w). rewrite H in Kp. destruct Kp as (_ & us & Hc & Ho); [|exists us; auto].
  split; [reflexivity|]. exists []. cbn. rewrite app_nil_r. auto.
Qed.

(** ** What a packet handed in goes through.  Its result when a plugin drops it is
    success, when one fails HE_ERR_FAILED, and nothing is sent in either case;
    otherwise what the last plugin left is sent. *)
Theorem C17_inside : forall E p w rc w', reached E w -> bytes_ok p -> call E (OInside p) w rc w' ->
  match refused_early (w_c w) p with
  | Some code => rc = code /\ during plugged w w' [] /\ during sent w w' []
  | None =>
    exists p' rp out pre us l,
      mss_clamped (path_mtu (w_c w) - 40) p p' /\
      pass true (c_mtu (w_c w) - 114) (in_order true (c_in_chain (w_c w))) p' pre rp out /\
      during plugged w w' (pre ++ concat us) /\ Forall (use (e_le E) (w_c w)) us /\
      during wrote w w' l /\ during sent w w' (map (fun x => fst (fst x)) l) /\
      if rp =? HE_SUCCESS then sending (e_le E) (w_c w) out l rc
      else us = [] /\ l = [] /\ rc = if rp =? HE_ERR_PLUGIN_DROP then HE_SUCCESS else HE_ERR_FAILED
  end.
Proof.
  intros E p w rc w' Re B C. destruct (call_body C) as (w1 & Bd & ->). cbn [api_body] in Bd. rewrite (u8s_id B) in Bd.
  pose proof (reached_cok Re) as K. destruct (Z.eqb_spec (c_state (w_c w)) HE_STATE_ONLINE) as [On|Off].
  2:{ unfold refused_early. apply Z.eqb_neq in Off. rewrite Off. cbn [negb]. unfold inside_packet_received in Bd. unfold bind at 1, get in Bd.
      cbn [push w_c] in Bd. rewrite Off in Bd. cbn [negb] in Bd. apply Done_inv in Bd. destruct Bd as [<- <-].
      split; [reflexivity|]. split; [apply during_call; try reflexivity; apply during_nil; reflexivity|]. apply during_call; try reflexivity; apply during_nil; reflexivity. }
  pose proof (reached_mtu Re On) as Mt. apply inside_plug in Bd; [|exact B|exact K|exact (proj1 Mt)]. cbn [push w_c] in Bd.
  destruct (refused_early (w_c w) p) as [code|].
  { destruct Bd as [-> ->]. split; [reflexivity|]. split; [apply during_call; try reflexivity; apply during_nil; reflexivity|]. apply during_call; try reflexivity; apply during_nil; reflexivity. }
  destruct Bd as (p' & rp & out & pre & Mc & _ & _ & Pm & _ & Ps & Bo & R). set (w0 := push (ECall (OInside p)) w) in *.
  pose proof (plugs_plugged (c_state (w_c w)) w0 Ps) as D0. cbv zeta in R. set (v := plugs _ pre w0) in *.
  assert (forall A (f : Z -> ev -> list A), (forall s b i d c, f s (EPlugin b i d c) = []) -> (forall s r d, f s (EPluginRet r d) = []) -> during f w0 v []) as Dn by (intros A f H1 H2; now apply plugs_other).
  assert (w_c v = w_c w) as Cv by reflexivity. clearbody v.
  assert (w1 = v -> exists us l, during plugged w (push (ERet (OInside p) rc) w1) (pre ++ concat us) /\ Forall (use (e_le E) (w_c w)) us /\
    during wrote w (push (ERet (OInside p) rc) w1) l /\ during sent w (push (ERet (OInside p) rc) w1) (map (fun x => fst (fst x)) l) /\ us = [] /\ l = []) as Stop.
  { intros ->. exists [], []. cbn [concat map]. rewrite app_nil_r. split; [apply during_call; try reflexivity; exact D0|]. split; [constructor|].
    split; [apply during_call; try reflexivity; now apply Dn|]. split; [apply during_call; try reflexivity; now apply Dn|]. auto. }
  exists p', rp, out, pre. destruct (Z.eqb_spec rp HE_ERR_PLUGIN_DROP) as [->|Nd].
  - destruct R as [-> Ew]. destruct (Stop Ew) as (us & l & A1 & A2 & A3 & A4 & A5 & A6). exists us, l. change (HE_ERR_PLUGIN_DROP =? HE_SUCCESS) with false. cbv iota. auto 10.
  - destruct (rp =? HE_SUCCESS).
    + rewrite <- Cv in R. destruct (@inside_rest_uses E out v rc w1) as (us & Du & Fu); [now rewrite Cv|exact R|].
      destruct (@inside_rest_sends E out v rc w1) as (l & Dw & Ds & Se); [now rewrite Cv|exact Bo|now rewrite Cv|exact R|]. rewrite Cv in *.
      exists us, l. split; [exact Mc|]. split; [exact Ps|]. split; [apply during_call; try reflexivity; exact (during_trans D0 Du)|]. split; [exact Fu|].
      split; [apply during_call; try reflexivity; exact (during_trans (Dn _ wrote ltac:(reflexivity) ltac:(reflexivity)) Dw)|].
      split; [apply during_call; try reflexivity; exact (during_trans (Dn _ sent ltac:(reflexivity) ltac:(reflexivity)) Ds)|]. exact Se.
    + destruct R as [-> Ew]. destruct (Stop Ew) as (us & l & A1 & A2 & A3 & A4 & A5 & A6). exists us, l. auto 10.
Qed.
Print Assumptions C17_inside.

(** ** What a received buffer goes through.  When a plugin drops it, the call
    returns success, when one fails or makes the buffer longer, HE_ERR_FAILED;
    then the plugin calls are all that happens. *)
Theorem C17_outside : forall E b w rc w', reached E w -> bytes_ok b -> call E (OOutside b) w rc w' ->
  c_state (w_c w) <> HE_STATE_DISCONNECTING -> c_state (w_c w) <> HE_STATE_DISCONNECTED ->
  exists rp out pre us, let s := c_state (w_c w) in
    pass true (len b) (in_order true (c_out_chain (w_c w))) b pre rp out /\
    during plugged w w' (pre ++ concat us) /\ Forall (use (e_le E) (w_c w)) us /\
    ((rp =? HE_SUCCESS) && (len out <=? len b) = false ->
     us = [] /\ rc = (if rp =? HE_ERR_PLUGIN_DROP then HE_SUCCESS else HE_ERR_FAILED) /\ w_c w' = w_c w /\
     w_t w' = (s, ERet (OOutside b) rc) :: entries s pre ++ (s, ECall (OOutside b)) :: w_t w).
Proof.
  intros E b w rc w' Re B C S1 S2. destruct (call_body C) as (w1 & Bd & ->). cbn [api_body] in Bd. rewrite (u8s_id B) in Bd.
  pose proof (reached_cok Re) as K. unfold outside_data_received in Bd. unfold bind at 1, get at 1 in Bd. set (w0 := push (ECall (OOutside b)) w) in *.
  change (w_c w0) with (w_c w) in Bd. apply Z.eqb_neq in S1, S2. rewrite S1, S2 in Bd. cbn [orb] in Bd. unfold bind at 1 in Bd.
  destruct (@ingress_pass E (c_out_chain (w_c w)) b (len b) w0) as (rp & out & pre & Eq & Ps & Bo). rewrite Eq in Bd. clear Eq.
  pose proof (plugs_plugged (c_state (w_c w)) w0 Ps) as D0. change (c_state (w_c w0)) with (c_state (w_c w)) in Bd.
  exists rp, out, pre. set (v := plugs _ pre w0) in *.
  assert (forall code, rc = code -> w1 = v -> during plugged w (push (ERet (OOutside b) rc) w1) (pre ++ concat []) /\ rc = code /\ w_c (push (ERet (OOutside b) rc) w1) = w_c w /\
     w_t (push (ERet (OOutside b) rc) w1) = (c_state (w_c w), ERet (OOutside b) rc) :: entries (c_state (w_c w)) pre ++ (c_state (w_c w), ECall (OOutside b)) :: w_t w) as Stop.
  { intros code -> ->. cbn [concat]. rewrite app_nil_r. split; [apply during_call; try reflexivity; exact D0|]. auto. }
  destruct (Z.eqb_spec rp HE_ERR_PLUGIN_DROP) as [->|Nd].
  { apply Done_inv in Bd. destruct Bd as [<- <-]. destruct (Stop _ eq_refl eq_refl) as (A1 & A2 & A3 & A4). exists []. cbv zeta. auto 10. }
  destruct (Z.eqb_spec rp HE_SUCCESS) as [->|Ns]; cbn [negb] in Bd.
  2:{ apply Done_inv in Bd. destruct Bd as [<- <-]. destruct (Stop _ eq_refl eq_refl) as (A1 & A2 & A3 & A4). exists []. cbv zeta.
      assert (rp = HE_ERR_FAILED) as -> by (destruct (pass_rc Ps) as [|[|]]; congruence). auto 10. }
  cbn [andb]. destruct (Z.ltb_spec (len b) (len out)) as [Lg|Lg]; destruct (Z.leb_spec (len out) (len b)); try lia.
  { apply Done_inv in Bd. destruct Bd as [<- <-]. destruct (Stop _ eq_refl eq_refl) as (A1 & A2 & A3 & A4). exists []. cbv zeta. auto 10. }
  pose proof (@UW_outside_rest E (w_c w) (collect plugged (w_t v)) (ok_vmaj K) (ok_vmin K) out v) as R.
  unfold outside_rest in R. rewrite Bd in R.
  destruct R as (_ & us & Hc & Ho). { split; [reflexivity|]. exists []. cbn [concat]. rewrite app_nil_r. auto. }
  exists us. cbv zeta. split; [exact Ps|]. split; [apply during_call; try reflexivity; exact (during_trans D0 Hc)|]. split; [exact Ho|]. discriminate.
Qed.
Print Assumptions C17_outside.

(** ** All calls: the plugins are called in complete passes, in order, and what
    comes out is what is used ([PlugSpec.use]). *)
Theorem C17_chains : forall E o w rc w', reached E w -> call E o w rc w' ->
  match o with OInside p => bytes_ok p | OOutside b => bytes_ok b | _ => True end ->
  exists pre us, during plugged w w' (pre ++ concat us) /\ first_pass (w_c w) o pre /\ Forall (use (e_le E) (writer o w w')) us.
Proof.
  intros E o w rc w' Re C Bo. destruct (match o with OInside _ | OOutside _ => true | _ => false end) eqn:Io.
  - destruct o; try discriminate Io; unfold writer; cbn [is_connect_op first_pass].
    + pose proof (C17_inside Re Bo C) as H. destruct (refused_early (w_c w) packet).
      * exists [], []. split; [exact (proj1 (proj2 H))|]. auto.
      * destruct H as (p' & rp & out & pre & us & l & A1 & A2 & A3 & A4 & _). exists pre, us. split; [exact A3|]. split; [|exact A4]. exists p', rp, out. auto.
    + destruct ((c_state (w_c w) =? HE_STATE_DISCONNECTING) || (c_state (w_c w) =? HE_STATE_DISCONNECTED)) eqn:S.
      * destruct (call_body C) as (w1 & Bd & ->). cbn [api_body] in Bd. unfold outside_data_received in Bd. unfold bind at 1, get at 1 in Bd. cbn [push w_c] in Bd.
        rewrite S in Bd. apply Done_inv in Bd. destruct Bd as [<- <-]. exists [], []. split; [apply during_call; try reflexivity; apply during_nil; reflexivity|]. auto.
      * apply orb_false_iff in S. destruct S as [S1 S2]. apply Z.eqb_neq in S1, S2.
        destruct (C17_outside Re Bo C S1 S2) as (rp & out & pre & us & A1 & A2 & A3 & _). exists pre, us. split; [exact A2|]. split; [eauto|exact A3].
  - pose proof (reached_call Re C) as Re'. pose proof (reached_cok Re) as K. pose proof (reached_cok Re') as K'. destruct (call_body C) as (w1 & Bd & ->).
    set (w0 := push (ECall o) w) in *. assert (collect plugged (w_t w0) = collect plugged (w_t w)) as T0 by (cbn [w0 push w_t collect plugged]; now rewrite app_nil_r).
    assert (forall c, (exists us, collect plugged (w_t w1) = collect plugged (w_t w) ++ concat us /\ Forall (use (e_le E) c) us) -> c = writer o w (push (ERet o rc) w1) ->
      first_pass (w_c w) o [] -> exists pre us, during plugged w (push (ERet o rc) w1) (pre ++ concat us) /\ first_pass (w_c w) o pre /\ Forall (use (e_le E) (writer o w (push (ERet o rc) w1))) us) as Fin.
    { intros c (us & D & F) -> Fp. exists [], us. split; [|auto]. apply during_call; try reflexivity. unfold during. rewrite D. cbn [app]. f_equal. symmetry. exact T0. }
    destruct (is_connect_op o) eqn:Co.
    + assert (exists us, collect plugged (w_t w1) = collect plugged (w_t w) ++ concat us /\ Forall (use (e_le E) (w_c w1)) us) as H.
      { destruct o; try discriminate Co; cbn [api_body] in Bd.
        - pose proof (@pends_client E (collect plugged (w_t w)) x inp outp w0 T0) as P. rewrite Bd in P. apply P; apply K'.
        - pose proof (@pends_server E (collect plugged (w_t w)) x inp outp w0 T0) as P. rewrite Bd in P. apply P; apply K'. }
      apply (Fin (w_c w1) H); [unfold writer; rewrite Co; reflexivity|]. destruct o; try discriminate Co; reflexivity.
    + apply (Fin (w_c w)); [|unfold writer; now rewrite Co|destruct o; try discriminate Io; reflexivity].
      assert (match o with OClientConnect _ _ _ | OServerConnect _ _ _ | OInside _ | OOutside _ => False | _ => True end) as No by (destruct o; try discriminate Io; try discriminate Co; exact I).
      pose proof (@into_op E (w_c w) (collect plugged (w_t w)) (ok_vmaj K) (ok_vmin K) o No w0) as P. rewrite Bd in P. apply P.
      split; [reflexivity|]. exists []. cbn [concat]. rewrite app_nil_r. auto.
Qed.
Print Assumptions C17_chains.

(** ** Chains that undo each other.  The egress pass undoes the ingress pass (and
    the other way round) if every plugin has both functions or none, every call
    succeeds, and each plugin's second function undoes its first. *)
Fixpoint answered (f : Z -> bytes -> bytes) (l : list plug_item) : Prop :=
  match l with
  | [] => True
  | PCalled _ id d _ :: PAnswer r o :: l' => r = HE_PLUGIN_SUCCESS /\ o = f id d /\ answered f l'
  | _ => False
  end.
Lemma pass_answered b cap f ids : forall d l rc out, pass b cap ids d l rc out -> answered f l ->
  rc = HE_SUCCESS /\ out = fold_left (fun d id => f id d) ids d.
Proof.
  induction ids as [|id ids IH]; intros d l rc out; cbn [pass fold_left]; [intros (-> & -> & ->); auto|].
  intros (r & o & l' & -> & H) [-> [-> A]]. change (HE_PLUGIN_SUCCESS =? HE_PLUGIN_FAIL) with false in H. change (HE_PLUGIN_SUCCESS =? HE_PLUGIN_DROP) with false in H.
  cbv iota in H. exact (IH _ _ _ _ H A).
Qed.
Lemma takers_same ch : (forall x, In (Some x) ch -> pl_in x = pl_out x) -> takers pl_in ch = takers pl_out ch.
Proof.
  induction ch as [|x ch IH]; intros H; [reflexivity|]. cbn [takers flat_map]. fold (takers pl_in ch). fold (takers pl_out ch). rewrite IH by (intros; apply H; now right).
  destruct x as [p|]; [|reflexivity]. now rewrite (H p) by now left.
Qed.
Lemma fold_undo (f g : Z -> bytes -> bytes) ids : (forall id d, In id ids -> g id (f id d) = d) ->
  forall d, fold_left (fun d id => g id d) (rev ids) (fold_left (fun d id => f id d) ids d) = d.
Proof.
  induction ids as [|id ids IH]; intros H d; [reflexivity|]. cbn [rev fold_left]. rewrite fold_left_app, IH by (intros; apply H; now right). cbn [fold_left].
  apply H. now left.
Qed.
Theorem C17_restores : forall f g ch ingress cap cap' p l rc p' l' rc' out,
  (forall x, In (Some x) ch -> pl_in x = pl_out x) ->
  (forall id d, In id (takers pl_in ch) -> g id (f id d) = d) ->
  pass ingress cap (in_order ingress ch) p l rc p' -> answered f l ->
  pass (negb ingress) cap' (in_order (negb ingress) ch) p' l' rc' out -> answered g l' ->
  rc = HE_SUCCESS /\ rc' = HE_SUCCESS /\ out = p.
Proof.
  intros f g ch b cap cap' p l rc p' l' rc' out Same Undo P1 A1 P2 A2. destruct (pass_answered P1 A1) as [-> ->]. destruct (pass_answered P2 A2) as [-> ->].
  split; [reflexivity|]. split; [reflexivity|]. apply takers_same in Same. destruct b; cbn [in_order negb].
  - rewrite <- Same. apply fold_undo. exact Undo.
  - rewrite <- Same. rewrite <- (rev_involutive (takers pl_in ch)) at 1. apply fold_undo. intros id d Hi. apply Undo. now apply in_rev.
Qed.
Print Assumptions C17_restores.

(** ** Examples: two plugins that add and subtract their number in the last byte;
    the second drops packets that end in 1 and fails for those that end in 10. *)
Definition add_last (k : Z) (d : bytes) : bytes := removelast d ++ [(last d 0 + k) mod 256].
Definition adding (t : trace) : Z * bytes :=
  match t with
  | (_, EPlugin b i d _) :: _ =>
    if (i =? 2) && (last d 0 =? 1) then (HE_PLUGIN_DROP, d)
    else if (i =? 2) && (last d 0 =? 10) then (HE_PLUGIN_FAIL, d)
    else (HE_PLUGIN_SUCCESS, add_last (if b then i else - i) d)
  | _ => (HE_PLUGIN_SUCCESS, [])
  end.
Definition plug_env : env := Env true 50 plain_ask plain_cb (fun _ => (ip 1, ip 2, ip 3)) adding plain_wolf (fun _ => HDone).
Definition two : chain := [Some (Plug 1 true true); None; Some (Plug 2 true true)].
Definition plug_up (inp : chain) : list op :=
  client_setup ++ [OClientConnect dctx inp []; OOutside (dgram 0 []); OOutside (dgram 0 (config_message true (ip 1) (ip 2) (ip 3) 4660))].
Definition plug_at (ops : list op) : world := world_of (run plug_env 0 ops world_new).
Definition ipv4_end (n : Z) : bytes := 69 :: zeros 19 ++ [1; 2; 3; n].
Example C17_example_inside :
  let w := plug_at (plug_up two) in let w' := plug_at (plug_up two ++ [OInside (ipv4_end 4)]) in
  reached plug_env w /\ call plug_env (OInside (ipv4_end 4)) w HE_SUCCESS w' /\ bytes_ok (ipv4_end 4) /\ refused_early (w_c w) (ipv4_end 4) = None /\
  during plugged w w'
    [PCalled true 1 (ipv4_end 4) 1386; PAnswer HE_PLUGIN_SUCCESS (ipv4_end 5); PCalled true 2 (ipv4_end 5) 1386; PAnswer HE_PLUGIN_SUCCESS (ipv4_end 7);
     POutside (dgram 4660 (data_message true 1 2 (ipv4_end 7) 0)); PWritten (data_message true 1 2 (ipv4_end 7) 0) 27] /\
  during sent w w' [data_message true 1 2 (ipv4_end 7) 0].
Proof.
  cbv zeta. split; [apply world_in_reached; vm_compute; reflexivity|]. split; [vm_compute; reflexivity|]. split; [apply bytes_ok_dec; vm_compute; reflexivity|].
  conj; vm_compute; reflexivity.
Qed.
Example C17_example_drop :
  let w := plug_at (plug_up two) in let w' := plug_at (plug_up two ++ [OInside (ipv4_end 0)]) in
  reached plug_env w /\ call plug_env (OInside (ipv4_end 0)) w HE_SUCCESS w' /\
  during plugged w w' [PCalled true 1 (ipv4_end 0) 1386; PAnswer HE_PLUGIN_SUCCESS (ipv4_end 1); PCalled true 2 (ipv4_end 1) 1386; PAnswer HE_PLUGIN_DROP (ipv4_end 1)] /\
  during sent w w' [].
Proof. cbv zeta. split; [apply world_in_reached; vm_compute; reflexivity|]. split; [vm_compute; reflexivity|]. conj; vm_compute; reflexivity. Qed.
Example C17_example_fail :
  let w := plug_at (plug_up two) in let w' := plug_at (plug_up two ++ [OInside (ipv4_end 9)]) in
  reached plug_env w /\ call plug_env (OInside (ipv4_end 9)) w HE_ERR_FAILED w' /\ during sent w w' [].
Proof. cbv zeta. split; [apply world_in_reached; vm_compute; reflexivity|]. split; [vm_compute; reflexivity|]. vm_compute; reflexivity. Qed.
(** The packet that was sent comes back: the plugins undo their work in reverse. *)
Example C17_example_outside :
  let b := dgram 4660 (data_message true 1 2 (ipv4_end 7) 0) in
  let w := plug_at (plug_up two) in let w' := plug_at (plug_up two ++ [OOutside b]) in
  reached plug_env w /\ call plug_env (OOutside b) w HE_SUCCESS w' /\ bytes_ok b /\
  c_state (w_c w) <> HE_STATE_DISCONNECTING /\ c_state (w_c w) <> HE_STATE_DISCONNECTED /\
  during plugged w w'
    [PGot HE_STATE_ONLINE (data_message true 1 2 (ipv4_end 7) 0); PCalled false 2 (ipv4_end 7) 24; PAnswer HE_PLUGIN_SUCCESS (ipv4_end 5);
     PCalled false 1 (ipv4_end 5) 24; PAnswer HE_PLUGIN_SUCCESS (ipv4_end 4); PInside (ipv4_end 4)].
Proof.
  cbv zeta. split; [apply world_in_reached; vm_compute; reflexivity|]. split; [vm_compute; reflexivity|]. split; [apply bytes_ok_dec; vm_compute; reflexivity|].
  split; [vm_compute; discriminate|]. split; [vm_compute; discriminate|]. vm_compute; reflexivity.
Qed.
Example C17_example_restores : exists l l',
  (forall x, In (Some x) two -> pl_in x = pl_out x) /\
  (forall id d, In id (takers pl_in two) -> (fun (_ : Z) (d : bytes) => tl d) id ((fun (id : Z) (d : bytes) => id :: d) id d) = d) /\
  pass true 100 (in_order true two) [] l HE_SUCCESS [2; 1] /\ answered (fun id => cons id) l /\
  pass false 100 (in_order false two) [2; 1] l' HE_SUCCESS [] /\ answered (fun (_ : Z) d => tl d) l'.
Proof.
  exists [PCalled true 1 [] 100; PAnswer HE_PLUGIN_SUCCESS [1]; PCalled true 2 [1] 100; PAnswer HE_PLUGIN_SUCCESS [2; 1]],
         [PCalled false 2 [2; 1] 100; PAnswer HE_PLUGIN_SUCCESS [1]; PCalled false 1 [1] 100; PAnswer HE_PLUGIN_SUCCESS []].
  split; [intros x [H|[H|[H|[]]]]; inversion H; reflexivity|]. split; [reflexivity|].
  split; [cbn; do 3 eexists; split; [reflexivity|]; cbn; do 3 eexists; split; [reflexivity|]; cbn; auto|]. split; [cbn; auto|].
  split; [cbn; do 3 eexists; split; [reflexivity|]; cbn; do 3 eexists; split; [reflexivity|]; cbn; auto|]. cbn; auto 10.
Qed.
