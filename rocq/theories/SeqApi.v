(** From the model's functions to API calls in reached states. *)
From Verif Require Import Base Codes Ctx Config Mss MssSpec MssProofs Frag FragSpec FragProofs ReasmTable FragHistory
  Wire WireSpec WireProofs ConnState Conn ConnSpec CallSpec MsgSpec ConnSteps ConnWp ConnWpApi Frame Reaction Seq SeqInside SeqOutside SeqReasm SeqMtu.
Unset Strict Implicit.

Lemma reached_good E w : reached E w -> Good w.
Proof. intros [ops R]. pose proof (run_good E 0 ops Good_new) as G. now rewrite R in G. Qed.
Lemma reached_cok E w : reached E w -> cok (w_c w).
Proof. intros H. exact (Reach_cok (proj1 (reached_good H))). Qed.
Lemma reached_mtu E w : reached E w -> c_state (w_c w) = HE_STATE_ONLINE -> 115 <= c_mtu (w_c w) <= 65535.
Proof. intros [ops R]. exact (run_mtu_online R). Qed.
Lemma run_app E n ops1 : forall ops2 w, run E n (ops1 ++ ops2) w = match run E n ops1 w with Done _ w' => run E n ops2 w' | Stuck u w' => Stuck u w' end.
Proof. induction ops1 as [|o ops1 IH]; intros ops2 w; [reflexivity|]. cbn [app run]. destruct (api _ _ o w); [apply IH|reflexivity]. Qed.
Lemma reached_call E w o rc w' : reached E w -> call E o w rc w' -> reached E w'.
Proof.
  intros [ops R] C. exists (ops ++ [o]). rewrite run_app, R. cbn [run]. unfold call in C. change (hookn E 0) with (@ret unit tt). now rewrite C.
Qed.
Lemma reached_run E w ops w' : reached E w -> run E 0 ops w = Done tt w' -> reached E w'.
Proof. intros [ops0 R] C. exists (ops0 ++ ops). now rewrite run_app, R. Qed.

(** The frame of a call. *)
Lemma call_body E o w rc w' : call E o w rc w' ->
  exists w1, api_body E (ret tt) o (push (ECall o) w) = Done rc w1 /\ w' = push (ERet o rc) w1.
Proof.
  unfold call, api. unfold bind at 1, emit at 1. fold (push (ECall o) w). unfold bind at 1.
  destruct (api_body E (ret tt) o (push (ECall o) w)) as [rc1 w1|]; [|discriminate].
  unfold bind, emit, ret. intros [= <- <-]. now exists w1.
Qed.
(** Such a host makes no nested calls. *)
Lemma reached_re E w : reached E w -> re (w_t w) = false.
Proof.
  intros [ops R]. assert (forall w0, re (w_t w0) = false -> run E 0 ops w0 = Done tt w -> re (w_t w) = false) as H; [|exact (H world_new eq_refl R)].
  clear R. induction ops as [|o ops IH]; intros w0 H0; cbn [run]; [now intros [= <-]|]. change (hookn E 0) with (@ret unit tt).
  destruct (api E (ret tt) o w0) as [rc w1|] eqn:C; [|discriminate]. apply IH. destruct (call_body C) as (w2 & Bd & ->).
  pose proof (@keeps_lib_body (fun v => re (w_t v) = false) E o) as Kp. specialize (Kp ltac:(intros e0 v0 He Hv; destruct e0; try discriminate He; exact Hv) ltac:(auto) (push (ECall o) w0) H0).
  rewrite Bd in Kp. exact Kp.
Qed.
Lemma during_call A (f : Z -> ev -> list A) o rc w w1 l :
  (forall s, f s (ECall o) = []) -> (forall s, f s (ERet o rc) = []) ->
  during f (push (ECall o) w) w1 l -> during f w (push (ERet o rc) w1) l.
Proof. intros H1 H2. unfold during. cbn [push w_t collect]. now rewrite H1, H2, !app_nil_r. Qed.

Lemma inside_call E p w rc w' : reached E w -> c_in_chain (w_c w) = [] -> bytes_ok p -> call E (OInside p) w rc w' ->
  match refusal (w_c w) p with
  | Some code => rc = code /\ during sent w w' [] /\ during outside w w' [] /\ w_c w' = w_c w
  | None =>
    exists p' l, mss_clamped (path_mtu (w_c w) - 40) p p' /\ ipv4_packet p' = true /\ bytes_ok p' /\
      during wrote w w' l /\ during sent w w' (map (fun x => fst (fst x)) l) /\
      if must_cut (w_c w) p then
        exists cs, chopped (frag_unit (w_c w)) cs p' /\ writes (fragments (c_frag_next (w_c w)) 0 cs) l rc /\
          c_frag_next (w_c w') = u16 (c_frag_next (w_c w) + 1)
      else
        writes [data_message (e_le E) (c_vmaj (w_c w)) (c_vmin (w_c w)) p' (padded_size (c_padding (w_c w)) (len p) - len p)] l rc
  end.
Proof.
  intros Re Ch B C. destruct (call_body C) as (w1 & Bd & ->). cbn [api_body] in Bd. rewrite (u8s_id B) in Bd.
  pose proof (reached_cok Re) as K.
  destruct (Z.eqb_spec (c_state (w_c w)) HE_STATE_ONLINE) as [On|Off].
  2:{ unfold refusal. apply Z.eqb_neq in Off. rewrite Off. cbn [negb]. unfold inside_packet_received in Bd. unfold bind at 1, get in Bd.
      cbn [push w_c] in Bd. rewrite Off in Bd. cbn [negb] in Bd. unfold ret in Bd. injection Bd as <- <-.
      split; [reflexivity|]. split; [apply during_call; try reflexivity; apply during_nil; reflexivity|].
      split; [apply during_call; try reflexivity; apply during_nil; reflexivity|]. reflexivity. }
  pose proof (reached_mtu Re On) as Mt.
  pose proof (@inside_seq E p (push (ECall (OInside p)) w) rc w1 B K Ch (proj1 Mt) Bd) as H. cbn [push w_c] in H.
  destruct (refusal (w_c w) p) as [code|] eqn:Rf.
  - destruct H as [-> ->]. split; [reflexivity|]. split; [apply during_call; try reflexivity; apply during_nil; reflexivity|].
    split; [apply during_call; try reflexivity; apply during_nil; reflexivity|]. reflexivity.
  - destruct H as (p' & MC & B' & IP & H). destruct (must_cut (w_c w) p) eqn:Cut.
    + assert (refusal (w_c w) p <> Some HE_ERR_FAILED) as NF by congruence.
      destruct (effective_path K) as [_ Pr].
      assert (552 <= path_mtu (w_c w) /\ len p <= c_mtu (w_c w) - 114) as [P5 Lm].
      { unfold refusal in Rf. rewrite On in Rf. cbn [Z.eqb negb HE_STATE_ONLINE] in Rf. change (HE_STATE_ONLINE =? HE_STATE_ONLINE) with true in Rf. cbn [negb] in Rf.
        destruct (len p <? 20); [discriminate Rf|]. destruct (Z.ltb_spec (c_mtu (w_c w) - 114) (len p)); [discriminate Rf|].
        destruct (negb (ip_version p =? 4)); [discriminate Rf|]. destruct (Z.ltb_spec (path_mtu (w_c w) - 40) 512); [discriminate Rf|]. lia. }
      assert (len p' = len p) as Lp by apply MC.
      assert (0 < frag_unit (w_c w) <= path_mtu (w_c w) - 4) as FU.
      { unfold frag_unit. pose proof (Z.mul_div_le (path_mtu (w_c w) - 4) 8). assert (1 <= (path_mtu (w_c w) - 4) / 8) by (apply Z.div_le_lower_bound; lia). lia. }
      destruct (@chop_exists (frag_unit (w_c w)) p') as [cs Cs]; [lia|].
      destruct (@frag_loop_seq E p' (c_frag_next (w_c w)) (frag_unit (w_c w))) with (fuel := Z.to_nat (len p')) (cs := cs) (off := 0)
        (w := World (set_frag_next (u16 (c_frag_next (w_c w) + 1)) (w_c w)) (w_t (push (ECall (OInside p)) w))) (rc := rc) (w' := w1) as (l & D1 & D2 & W & Q).
      * exact (ok_frag_next K).
      * lia.
      * change HE_MAX_WIRE_MTU with 1500. lia.
      * pose proof (ok_mtu K). lia.
      * lia.
      * rewrite Z.sub_0_r. replace (slice p' 0 (len p')) with p'; [exact Cs|]. unfold slice, len. rewrite Nat2Z.id. cbn [Z.to_nat skipn]. symmetry. apply firstn_all.
      * apply len_nonneg.
      * rewrite Z.sub_0_r. exact H.
      * exists p', l. split; [exact MC|]. split; [exact IP|]. split; [exact B'|].
        split; [apply during_call; try reflexivity; exact D1|]. split; [apply during_call; try reflexivity; exact D2|].
        exists cs. split; [exact Cs|]. split; [exact W|]. destruct Q as (r & e & Q). cbn [w_c push] in *. rewrite Q. reflexivity.
    + destruct (send_writes H) as (l & D1 & D2 & W). exists p', l. split; [exact MC|]. split; [exact IP|]. split; [exact B'|].
      split; [apply during_call; try reflexivity; exact D1|]. split; [apply during_call; try reflexivity; exact D2|]. exact W.
Qed.

(** ** Receiving *)
Lemma payload_data le le' vmaj vmin p pad : bytes_ok p -> len p < 65536 -> ipv4_packet p = true ->
  le = le' \/ vmaj <> 1 \/ vmin <> 0 ->
  payload le vmaj vmin (HE_STATE_ONLINE, data_message le' vmaj vmin p pad) = [p].
Proof.
  intros B L IP V. unfold payload. pose proof (len_nonneg p) as Lp.
  assert (data_length le vmaj vmin (data_message le' vmaj vmin p pad) = len p) as ->.
  { unfold data_length, data_message, data_length_field.
    destruct ((vmaj =? 1) && (vmin =? 0)) eqn:V10.
    - assert (le = le') as <-. { apply andb_true_iff in V10 as [X Y]. apply Z.eqb_eq in X, Y. tauto. }
      destruct le; cbn [andb bytes16]; unfold field16, field16le; cbn [nth app]; rewrite (Z.mod_small (len p / 256)) by (split; [apply Z.div_pos|apply Z.div_lt_upper_bound]; lia); pose proof (Z.div_mod (len p) 256); lia.
    - cbn [andb be16 app]. unfold field16. cbn [nth]. pose proof (Z.div_mod (len p) 256). lia. }
  assert (len (data_length_field le' vmaj vmin (len p)) = 2) as L2.
  { unfold data_length_field. destruct (_ && _); [rewrite len_bytes16|rewrite len_be16]; lia. }
  assert (3 + len p <=? len (data_message le' vmaj vmin p pad) = true) as ->.
  { apply Z.leb_le. unfold data_message. rewrite len_cons, !len_app, L2. pose proof (len_nonneg (zeros pad)). lia. }
  change (msg_type (data_message le' vmaj vmin p pad) =? HE_MSGID_DATA) with true. cbn [andb].
  assert (slice (data_message le' vmaj vmin p pad) 3 (len p) = p) as ->.
  { unfold data_message. set (f := data_length_field le' vmaj vmin (len p)) in *. destruct f as [|a [|b [|c f]]]; try (unfold len in L2; cbn in L2; lia).
    unfold slice. change (Z.to_nat 3) with 3%nat. cbn [app skipn]. unfold len. rewrite Nat2Z.id. apply firstn_app_exact. }
  rewrite IP. reflexivity.
Qed.

Lemma asked_clock w w' qs : during asked w w' qs ->
  during clock w w' (flat_map (fun x => match x with (QTime, r) => [r] | _ => [] end) qs).
Proof.
  unfold during. assert (forall t, collect clock t = flat_map (fun x => match x with (QTime, r) => [r] | _ => [] end) (collect asked t)) as H.
  { induction t as [|[s e] t IH]; [reflexivity|]. cbn [collect]. rewrite IH, flat_map_app. f_equal. destruct e; try reflexivity; match goal with q : query |- _ => destruct q end; reflexivity. }
  intros D. rewrite !H, D. now rewrite flat_map_app.
Qed.
Lemma asked_allocs w w' qs : during asked w w' qs ->
  during allocs w w' (flat_map (fun x => match x with (QAlloc, r) => [r] | _ => [] end) qs).
Proof.
  unfold during. assert (forall t, collect allocs t = flat_map (fun x => match x with (QAlloc, r) => [r] | _ => [] end) (collect asked t)) as H.
  { induction t as [|[s e] t IH]; [reflexivity|]. cbn [collect]. rewrite IH, flat_map_app. f_equal. destruct e; try reflexivity; match goal with q : query |- _ => destruct q end; reflexivity. }
  intros D. rewrite !H, D. now rewrite flat_map_app.
Qed.
Lemma during_unique A (f : Z -> ev -> list A) w w' l l' : during f w w' l -> during f w w' l' -> l = l'.
Proof. unfold during. intros -> H. now apply app_inv_head in H. Qed.

(** What [act] says about messages and packets separately. *)
Definition lefts {A B} (l : list (A + B)) : list A := flat_map (fun x => match x with inl a => [a] | inr _ => [] end) l.
Definition rights {A B} (l : list (A + B)) : list B := flat_map (fun x => match x with inl _ => [] | inr b => [b] end) l.
Lemma lefts_inl A B (l : list A) : lefts (map (@inl A B) l) = l.
Proof. induction l; cbn; [reflexivity|]. unfold lefts in IHl. now rewrite IHl. Qed.
Lemma lefts_inr A B (l : list B) : lefts (map (@inr A B) l) = [].
Proof. induction l; auto. Qed.
Lemma rights_inr A B (l : list B) : rights (map (@inr A B) l) = l.
Proof. induction l; cbn; [reflexivity|]. unfold rights in IHl. now rewrite IHl. Qed.
Lemma rights_inl A B (l : list A) : rights (map (@inl A B) l) = [].
Proof. induction l; auto. Qed.
Lemma lefts_app A B (l l' : list (A + B)) : lefts (l ++ l') = lefts l ++ lefts l'.
Proof. apply flat_map_app. Qed.
Lemma rights_app A B (l l' : list (A + B)) : rights (l ++ l') = rights l ++ rights l'.
Proof. apply flat_map_app. Qed.
Lemma act_split w w' ds : during act w w' (acts ds) -> during got_msg w w' (map fst ds) /\ during inside w w' (flat_map snd ds).
Proof.
  unfold during. intros H.
  assert (forall t, collect got_msg t = lefts (collect act t)) as G.
  { induction t as [|[s e] t IH]; [reflexivity|]. cbn [collect]. unfold act at 2. rewrite !lefts_app, <- IH, lefts_inl, lefts_inr. now rewrite app_nil_r. }
  assert (forall t, collect inside t = rights (collect act t)) as G'.
  { induction t as [|[s e] t IH]; [reflexivity|]. cbn [collect]. unfold act at 2. rewrite !rights_app, <- IH, rights_inl, rights_inr. reflexivity. }
  rewrite !G, !G', H, lefts_app, rights_app.
  split; f_equal; clear; unfold acts; induction ds as [|[x ps] ds IH]; try reflexivity; cbn [flat_map map fst snd].
  - rewrite lefts_app, IH. change (inl x :: map inr ps) with (map (@inl _ bytes) [x] ++ map (@inr (Z * bytes) _) ps). now rewrite lefts_app, lefts_inl, lefts_inr.
  - rewrite rights_app, IH. change (inl x :: map inr ps) with (map (@inl _ bytes) [x] ++ map (@inr (Z * bytes) _) ps). now rewrite rights_app, rights_inl, rights_inr.
Qed.

(** All the facts about a series of calls. *)
Lemma receive_calls E w bs w' :
  reached E w -> c_in_chain (w_c w) = [] -> cb_inside (c_cbs (w_c w)) = true ->
  run E 0 (map OOutside bs) w = Done tt w' ->
  exists ds, during act w w' (acts ds) /\
    Forall (fun d => is_frag (fst d) = false -> snd d = payload (e_le E) (c_vmaj (w_c w)) (c_vmin (w_c w)) (fst d)) ds /\
    forall t id cs p arr times avail, c_frag_tbl (w_c w) = Some t -> t_get t (id mod t_num t) = None -> 0 <= id < 65536 ->
      during clock w w' times -> (forall x y, In x times -> In y times -> x - y <= 64) ->
      during allocs w w' avail -> ~ In 0 avail ->
      cut_of cs p 1500 -> (forall i, (S i < length cs)%nat -> len (nth i cs []) mod 8 = 0) -> arrival (length cs) arr ->
      let mine := filter (fun d => at_place (t_num t) id (fst d)) ds in
      map (fun d => snd (fst d)) mine = map (fun i => nth i (fragments id 0 cs) []) arr ->
      (grows_consecutively arr -> map snd mine = repeat [] (length cs - 1) ++ [if ipv4_packet p then [p] else []]) /\
      (~ grows_consecutively arr -> map snd mine = repeat [] (length cs)).
Proof.
  intros Re Ch Cb R. destruct (outside_calls Ch Cb R) as (ds & qs & D1 & D3 & Tk & Cf). exists ds. split; [exact D1|].
  split; [exact (took_plain Tk)|]. intros t id cs p arr times avail Ht Hf Hid Dc Hc Da Ha CUT H8 Ar mine Hm.
  rewrite Ht in Tk. pose proof (during_unique (asked_clock D3) Dc) as <-. pose proof (during_unique (asked_allocs D3) Da) as <-.
  eapply (took_reassembles (A := qs)); eauto.
  - intros r I ->. apply Ha. apply in_flat_map. exists (QAlloc, 0). split; [exact I|]. now left.
  - intros r r' I1 I2. apply Hc; apply in_flat_map; [exists (QTime, r)|exists (QTime, r')]; (split; [assumption|]); left; reflexivity.
  - exact (ok_tbl (reached_cok Re) Ht).
Qed.

Lemma Done_inv A (a b : A) w w' : Done a w = Done b w' -> a = b /\ w = w'.
Proof. intros [=]. auto. Qed.
(** After a connect every place is free. *)
Definition all_free (w : world) : Prop := exists t, c_frag_tbl (w_c w) = Some t /\ forall i, t_get t i = None.
Lemma all_free_connect E x i p w rc w' : internal_connect E (ret tt) x i p w = Done rc w' -> rc = HE_SUCCESS -> all_free w'.
Proof.
  intros C ->. unfold internal_connect in C. unfold bind at 1 in C. destruct (configure E x i p w) as [rc1 w1|] eqn:Cf; [|discriminate].
  destruct (Z.eqb_spec rc1 HE_SUCCESS) as [->|N]; cbn [negb] in C; [|unfold ret in C; injection C as C _; congruence].
  assert (all_free w1) as F1.
  { unfold configure in Cf. cbv beta iota zeta delta [bind upd ask log emit get ret w_c w_t] in Cf.
    match type of Cf with context [table_create ?a ?b ?n] => destruct (table_create a b n) as [t|] eqn:Tc; [|discriminate] end.
    apply Done_inv in Cf as [_ <-]. exists t. split; [reflexivity|]. unfold table_create in Tc.
    repeat match type of Tc with (if ?b then _ else _) = _ => destruct b; try discriminate Tc end. injection Tc as <-. reflexivity. }
  match type of C with ?m w1 = _ => assert (keeps all_free (fun _ => True) m) as K end.
  { assert (forall sz, keeps all_free (fun _ => True) (io_read sz)) as Kr by (intros; apply keeps_io_read; auto).
    assert (keeps all_free (fun _ : world => True) (@ret unit tt)) as Kh by apply keeps_ret.
    assert (forall b, keeps all_free (fun _ => True) (io_write E (ret tt) b)) as Kw by (intros; apply keeps_io_write; auto).
    assert (forall o, keeps all_free (fun _ => True) (wolf_op E (ret tt) o)) as Ko by (intros; apply keeps_wolf_op'; auto).
    assert (forall s, keeps all_free (fun _ => True) (change_conn_state E (ret tt) s)) as Ks by (intros; apply keeps_change_conn_state; auto).
    assert (keeps all_free (fun _ => True) (update_timeout E (ret tt))) as Ku by (apply keeps_update_timeout; auto).
    assert (keeps all_free (fun _ => True) (wolf_settings E x)) as K1 by (apply keeps_settings; auto).
    assert (keeps all_free (fun _ => True) (wolf_settings2 E x)) as K2 by (apply keeps_settings2; auto).
    assert (forall q, keeps all_free (fun _ => True) (ask E q)) as Ka by (intros q w0 H0; exact H0).
    repeat first [apply keeps_ret|apply Ko|apply Ks|apply Ku|apply K1|apply K2|apply Ka|apply keeps_upd; now intros w0 H0
                 |case_if|apply keeps_bind; [|intros; cbv zeta]|match goal with |- keeps _ _ (let '(_, _) := ?x in _) => destruct x as [? ?] end]. }
  specialize (K w1 F1). now rewrite C in K.
Qed.
Lemma connect_all_free E o w w' : call E o w HE_SUCCESS w' -> match o with OClientConnect _ _ _ | OServerConnect _ _ _ => True | _ => False end ->
  all_free w'.
Proof.
  intros C Ho. destruct (call_body C) as (w1 & Bd & ->). enough (all_free w1) as [t [H1 H2]] by (exists t; auto).
  destruct o; try easy; cbn [api_body] in Bd.
  - unfold client_connect in Bd. unfold bind at 1, get in Bd. unfold bind at 1 in Bd. destruct (is_valid_client _ _) as [r|]; [|discriminate].
    unfold lift, ret in Bd. destruct (Z.eqb_spec r HE_SUCCESS) as [_|N]; cbn [negb] in Bd; [|apply Done_inv in Bd as [Bd _]; congruence].
    unfold bind, upd in Bd. eapply all_free_connect; [exact Bd|reflexivity].
  - unfold server_connect in Bd. unfold bind at 1, get in Bd. match type of Bd with (if negb (?v =? _) then _ else _) _ = _ => destruct (Z.eqb_spec v HE_SUCCESS) as [_|N] end;
      cbn [negb] in Bd; [|apply Done_inv in Bd as [Bd _]; congruence].
    unfold bind at 1, upd in Bd. unfold bind at 1 in Bd. destruct (internal_connect _ _ _ _ _ _) as [r w2|] eqn:Ic; [|discriminate].
    destruct (Z.eqb_spec r HE_SUCCESS) as [->|N]; cbn [negb] in Bd; [|unfold ret in Bd; injection Bd as Bd _; congruence].
    pose proof (all_free_connect Ic eq_refl) as F.
    assert (keeps all_free (fun _ => True) (generate_session_id E)) as K by (apply keeps_generate_session_id; auto).
    unfold bind at 1 in Bd. specialize (K w2 F). destruct (generate_session_id E w2) as [[r s] w3|]; [|discriminate].
    destruct (negb _); unfold bind, upd, ret in Bd; apply Done_inv in Bd as [_ <-]; assumption.
Qed.
Lemma connect_free E o w w' : call E o w HE_SUCCESS w' -> match o with OClientConnect _ _ _ | OServerConnect _ _ _ => True | _ => False end ->
  forall id, place_free (w_c w') id.
Proof. intros C Ho id. destruct (connect_all_free C Ho) as [t [H1 H2]]. exists t. auto. Qed.
