(** C09, C14, C24, C31, C33 and C10 for the API: packets through a connection.
    Vocabulary: [CallSpec.v]; message formats: [WireSpec.v].  The host makes no
    calls inside callbacks and there are no plugins on the inside (plugins: C17). *)
From Verif Require Import Base Codes Ctx FragSpec MssSpec Frag Wire WireSpec WireProofs ConnState Conn ConnSpec CallSpec MsgSpec
  Scenario SeqInside SeqReasm SeqApi.
Unset Strict Implicit.

(** ** C14, C24, C31: what he_conn_inside_packet_received does, exactly.  A packet
    that is refused leaves no trace; any other is, after MSS clamping, written as
    one DATA message padded as configured, or as the fragments of a cut in
    pieces as large as fit in the path MTU, in order, until a write fails; the
    result is the first failure. *)
Theorem C14_packet_sent : forall E w p rc w',
  reached E w -> c_in_chain (w_c w) = [] -> bytes_ok p -> call E (OInside p) w rc w' ->
  match refusal (w_c w) p with
  | Some code => rc = code /\ during sent w w' [] /\ during outside w w' [] /\ w_c w' = w_c w
  | None =>
    exists p' l, mss_clamped (path_mtu (w_c w) - 40) p p' /\ ipv4_packet p' = true /\ bytes_ok p' /\
      during wrote w w' l /\ during sent w w' (map (fun x => fst (fst x)) l) /\
      if must_cut (w_c w) p then
        exists cs, chopped (8 * ((path_mtu (w_c w) - 4) / 8)) cs p' /\
          writes (fragments (c_frag_next (w_c w)) 0 cs) l rc /\
          c_frag_next (w_c w') = (c_frag_next (w_c w) + 1) mod 65536
      else
        writes [data_message (e_le E) (c_vmaj (w_c w)) (c_vmin (w_c w)) p'
                  (padded_size (c_padding (w_c w)) (len p) - len p)] l rc
  end.
Proof. intros E w p rc w'. exact (@inside_call E p w rc w'). Qed.
Print Assumptions C14_packet_sent.

(** ** C14: what reaches the inside while messages come in: each message that is
    not a fragment brings exactly the packet in it, if any, in order. *)
Theorem C14_packets_received : forall E w bs w',
  reached E w -> c_in_chain (w_c w) = [] -> cb_inside (c_cbs (w_c w)) = true ->
  run E 0 (map OOutside bs) w = Done tt w' ->
  exists ds, during act w w' (acts ds) /\
    Forall (fun d => is_frag (fst d) = false ->
                     snd d = payload (e_le E) (c_vmaj (w_c w)) (c_vmin (w_c w)) (fst d)) ds.
Proof.
  intros E w bs w' Re Ch Cb R. destruct (receive_calls Re Ch Cb R) as (ds & D1 & D3 & _). now exists ds.
Qed.
Print Assumptions C14_packets_received.

(** The packet in a DATA message is the packet that was put in, whatever the
    padding.  In version 1.0 both ends must have the same byte order. *)
Theorem C14_data_roundtrip : forall le le' major minor p pad,
  bytes_ok p -> len p < 65536 -> ipv4_packet p = true ->
  le = le' \/ major <> 1 \/ minor <> 0 ->
  payload le major minor (HE_STATE_ONLINE, data_message le' major minor p pad) = [p].
Proof. exact payload_data. Qed.
Print Assumptions C14_data_roundtrip.

(** Finding: between version 1.0 peers of different byte order no packet of these
    lengths arrives. *)
Theorem C14_mixed_endian_refuted :
  bytes_ok ipv4 /\ ipv4_packet ipv4 = true /\
  payload true 1 0 (HE_STATE_ONLINE, data_message false 1 0 ipv4 0) = [].
Proof. split; [|split; vm_compute; reflexivity]. vm_compute. repeat constructor; congruence. Qed.
Print Assumptions C14_mixed_endian_refuted.

(** ** C09: the fragments of a cut.  Number [i] carries piece [i], says where it
    belongs (a multiple of 8) and whether more follow, and fits in the path MTU
    (plus the 3 bytes of a data header); together they are the packet. *)
Theorem C09_fragments : forall c cs p,
  552 <= path_mtu c <= 1416 -> chopped (8 * ((path_mtu c - 4) / 8)) cs p -> len p < 65536 ->
  concat cs = p /\
  forall id i, (i < length cs)%nat ->
    let offset := len (concat (firstn i cs)) in
    nth i (fragments id 0 cs) [] = fragment_message id offset (S i <? length cs)%nat (nth i cs []) /\
    offset mod 8 = 0 /\ 0 < len (nth i cs []) /\
    len (nth i (fragments id 0 cs) []) <= path_mtu c + 3 /\
    offset + len (nth i cs []) <= len p /\
    slice p offset (len (nth i cs [])) = nth i cs [].
Proof.
  intros c cs p Hp (Hc & Hf & Hn) Lp. split; [exact Hc|]. intros id i Hi. cbv zeta.
  set (n := 8 * ((path_mtu c - 4) / 8)) in *.
  assert (0 < n <= path_mtu c - 4) as Nb.
  { unfold n. pose proof (Z.mul_div_le (path_mtu c - 4) 8). assert (1 <= (path_mtu c - 4) / 8) by (apply Z.div_le_lower_bound; lia). lia. }
  assert (0 < len (nth i cs []) <= n) as Li by (rewrite Forall_forall in Hf; apply Hf, nth_In, Hi).
  assert (concat cs = concat (firstn i cs) ++ nth i cs [] ++ concat (skipn (S i) cs)) as Sp.
  { clear - Hi. revert i Hi. induction cs as [|a cs IH]; intros i Hi; [cbn in Hi; lia|]. destruct i as [|i]; [reflexivity|].
    cbn [firstn concat nth skipn]. rewrite <- app_assoc. f_equal. apply IH. cbn in Hi. lia. }
  split; [now rewrite fragments_nth|]. split.
  { assert (forall k, (k < length cs)%nat -> len (concat (firstn k cs)) = Z.of_nat k * n) as H.
    { induction k as [|k IH]; intros Hk; [reflexivity|].
      rewrite (@ReasmTable.firstn_S_nth _ cs k []) by lia. rewrite concat_app, len_app. cbn [concat]. rewrite app_nil_r, IH, Hn by lia. lia. }
    rewrite H by exact Hi. unfold n. replace (Z.of_nat i * (8 * ((path_mtu c - 4) / 8))) with (Z.of_nat i * ((path_mtu c - 4) / 8) * 8) by lia.
    apply Z.mod_mul. lia. }
  split; [lia|]. split.
  { rewrite fragments_nth by exact Hi. unfold fragment_message. rewrite len_cons, !len_app, !len_be16. lia. }
  split.
  { rewrite <- Hc, Sp, !len_app. pose proof (len_nonneg (concat (skipn (S i) cs))). lia. }
  rewrite <- Hc, Sp. now apply slice_mid.
Qed.
Print Assumptions C09_fragments.

(** ** C10 for the API.  Pieces of one packet arrive in any order, mixed with any
    other messages, over any number of calls; the place of the packet is free,
    allocations succeed and no more than 64 seconds pass.  If the pieces
    received stay consecutive the packet is delivered, once, with the last one;
    otherwise nothing is. *)
Theorem C10_api_partial : forall E w bs w' n id cs p arr times avail,
  reached E w -> c_in_chain (w_c w) = [] -> cb_inside (c_cbs (w_c w)) = true ->
  run E 0 (map OOutside bs) w = Done tt w' ->
  (exists t, c_frag_tbl (w_c w) = Some t /\ t_num t = n /\ t_get t (id mod n) = None) -> 0 <= id < 65536 ->
  during clock w w' times -> (forall x y, In x times -> In y times -> x - y <= 64) ->
  during allocs w w' avail -> ~ In 0 avail ->
  cut_of cs p 1500 -> (forall i, (S i < length cs)%nat -> len (nth i cs []) mod 8 = 0) ->
  ipv4_packet p = true -> arrival (length cs) arr ->
  exists ds, during act w w' (acts ds) /\
    let mine := filter (fun d => at_place n id (fst d)) ds in
    (map (fun d => snd (fst d)) mine = map (fun i => nth i (fragments id 0 cs) []) arr ->
      (grows_consecutively arr -> map snd mine = repeat [] (length cs - 1) ++ [[p]]) /\
      (~ grows_consecutively arr -> map snd mine = repeat [] (length cs))).
Proof.
  intros E w bs w' n id cs p arr times avail Re Ch Cb R (t & Ht & <- & Hg) Hid Dc Hc Da Ha CUT H8 IP Ar.
  destruct (receive_calls Re Ch Cb R) as (ds & D1 & _ & H). exists ds. split; [exact D1|]. intros mine Hm.
  specialize (H t id cs p arr times avail Ht Hg Hid Dc Hc Da Ha CUT H8 Ar Hm). now rewrite IP in H.
Qed.
Print Assumptions C10_api_partial.
(** Right after a successful connect every place is free. *)
Theorem C10_connect_frees : forall E o w w', call E o w HE_SUCCESS w' ->
  match o with OClientConnect _ _ _ | OServerConnect _ _ _ => True | _ => False end ->
  forall id, place_free (w_c w') id.
Proof. exact connect_free. Qed.
Print Assumptions C10_connect_frees.

(** ** C33: end to end.  A packet of at most 1500 bytes accepted on one side; the
    other side, of the same version, receives what was written (mixed with other
    messages, during any number of calls).  It delivers the packet the sender
    made by MSS clamping, and nothing else for it: once per copy of a DATA
    message; once for fragments, with the last one, if they come in an order in
    which the pieces stay consecutive. *)
Theorem C33_end_to_end : forall Es s p s' Er r bs r',
  reached Es s -> c_in_chain (w_c s) = [] -> bytes_ok p -> len p <= 1500 ->
  call Es (OInside p) s HE_SUCCESS s' ->
  reached Er r -> c_in_chain (w_c r) = [] -> cb_inside (c_cbs (w_c r)) = true ->
  (c_vmaj (w_c r), c_vmin (w_c r)) = (c_vmaj (w_c s), c_vmin (w_c s)) ->
  e_le Er = e_le Es \/ c_vmaj (w_c s) <> 1 \/ c_vmin (w_c s) <> 0 ->
  run Er 0 (map OOutside bs) r = Done tt r' ->
  exists p' ms ds,
    mss_clamped (path_mtu (w_c s) - 40) p p' /\ during sent s s' ms /\
    during act r r' (acts ds) /\
    if must_cut (w_c s) p then
      forall n times avail arr,
      (exists t, c_frag_tbl (w_c r) = Some t /\ t_num t = n /\ t_get t (c_frag_next (w_c s) mod n) = None) ->
      during clock r r' times -> (forall x y, In x times -> In y times -> x - y <= 64) ->
      during allocs r r' avail -> ~ In 0 avail ->
      let mine := filter (fun d => at_place n (c_frag_next (w_c s)) (fst d)) ds in
      arrival (length ms) arr -> grows_consecutively arr ->
      map (fun d => snd (fst d)) mine = map (fun i => nth i ms []) arr ->
      map snd mine = repeat [] (length ms - 1) ++ [[p']]
    else exists m, ms = [m] /\ Forall (fun d => fst d = (HE_STATE_ONLINE, m) -> snd d = [p']) ds.
Proof.
  intros Es s p s' Er r bs r' Rs Chs B Lp C Rr Chr Cb V Le R.
  pose proof (inside_call Rs Chs B C) as H. destruct (refusal (w_c s) p) as [code|] eqn:Rf.
  { exfalso. destruct H as [H _]. symmetry in H. unfold refusal in Rf. rewrite H in Rf.
    repeat match type of Rf with (if ?b then _ else _) = _ => destruct b; try discriminate Rf end. }
  destruct H as (p' & l & MC & IP & B' & D1 & D2 & W).
  destruct (receive_calls Rr Chr Cb R) as (ds & G1 & G3 & G4).
  exists p', (map (fun x => fst (fst x)) l), ds. split; [exact MC|]. split; [exact D2|]. split; [exact G1|].
  assert (len p' = len p) as Lp' by apply MC.
  destruct (must_cut (w_c s) p) eqn:Cut.
  - destruct W as (cs & Cs & W & _). intros n times avail arr (t & Ht & <- & Hg) Dc Hc Da Ha mine Ar Gr Hm.
    assert (map (fun x => fst (fst x)) l = fragments (c_frag_next (w_c s)) 0 cs) as Ms.
    { clear - W. revert W. generalize (fragments (c_frag_next (w_c s)) 0 cs) as ms. intros ms. revert l.
      induction ms as [|m ms IH]; intros [|[[m' x] y] l]; cbn [writes map]; try easy. intros [-> H].
      destruct (Z.eqb_spec (write_code x y) HE_SUCCESS); [|destruct H as [_ H]; congruence]. cbn. f_equal. now apply IH. }
    rewrite Ms in *. rewrite fragments_length in *.
    pose proof (reached_cok Rs) as K. destruct (effective_path K) as [_ Pb].
    assert (552 <= path_mtu (w_c s) < len p) as P5.
    { unfold refusal in Rf. unfold must_cut in Cut. apply andb_true_iff in Cut as [_ Cut]. apply Z.ltb_lt in Cut.
      repeat match type of Rf with (if ?b then _ else _) = _ => destruct b eqn:?; try discriminate Rf end.
      match goal with H : (path_mtu (w_c s) - 40 <? 512) = false |- _ => apply Z.ltb_ge in H end. lia. }
    assert (0 < frag_unit (w_c s) <= path_mtu (w_c s) - 4) as FU.
    { unfold frag_unit. pose proof (Z.mul_div_le (path_mtu (w_c s) - 4) 8). assert (1 <= (path_mtu (w_c s) - 4) / 8) by (apply Z.div_le_lower_bound; lia). lia. }
    destruct (G4 t (c_frag_next (w_c s)) cs p' arr times avail Ht Hg (ConnSteps.ok_frag_next K) Dc Hc Da Ha) as [G _]; auto.
    + destruct Cs as (C1 & C2 & C3). split; [exact C1|]. split; [eapply Forall_impl; [|exact C2]; intros [|a q] [X _]; [cbn in X; lia|discriminate]|].
      split; [|lia]. destruct cs as [|c0 [|c1 cs]]; [rewrite <- C1 in Lp'; cbn in Lp'; lia| |cbn; lia].
      rewrite <- C1 in Lp'. cbn [concat] in Lp'. rewrite app_nil_r in Lp'. inversion_clear C2. lia.
    + intros i Hi. destruct Cs as (_ & _ & C3). rewrite C3 by exact Hi. unfold frag_unit. rewrite Z.mul_comm. apply Z.mod_mul. lia.
    + fold mine in G. rewrite IP in G. now apply G.
  - set (m := data_message _ _ _ _ _) in W. exists m. destruct l as [|[[m' x] y] l]; [destruct W|]. destruct W as [-> W].
    destruct (Z.eqb_spec (write_code x y) HE_SUCCESS); [|destruct W as [_ W]; congruence]. destruct l; [|destruct W]. split; [reflexivity|].
    eapply Forall_impl; [|exact G3]. intros [[st msg] ps] H [= -> ->]. cbn [fst snd] in H. rewrite H by reflexivity.
    injection V as V1 V2. rewrite V1, V2. apply payload_data; auto. lia.
Qed.
Print Assumptions C33_end_to_end.

(** ** The hypotheses are met *)
Ltac conj := repeat match goal with |- _ /\ _ => split end.
Definition world_at (ops : list op) : world := world_of (run plain_env 0 ops world_new).
Lemma world_at_reached ops : finishes plain_env 0 ops = true -> reached plain_env (world_at ops).
Proof. unfold finishes, world_at, reached. destruct (run plain_env 0 ops world_new) as [[] w|] eqn:R; [|discriminate]. intros _. now exists ops. Qed.
(** 1380 bytes, cut in 1344 + 36 *)
Definition large : bytes := 69 :: zeros 1378 ++ [7].
Definition pieces : list bytes := [firstn 1344 large; skipn 1344 large].
Definition fragment_datagrams : list bytes := map (dgram 4660) (rev (fragments 0 0 pieces)).

Lemma bytes_ok_dec l : forallb (fun b => (0 <=? b) && (b <? 256)) l = true -> bytes_ok l.
Proof. intros H. apply Forall_forall. intros b I. rewrite forallb_forall in H. specialize (H b I). apply andb_true_iff in H as [H1 H2]. apply Z.leb_le in H1. apply Z.ltb_lt in H2. split; lia. Qed.

(** A client that is up sends the large packet: two writes, both fine; and the
    small one: one write. *)
Example C14_example :
  let s := world_at client_up in
  reached plain_env s /\ c_in_chain (w_c s) = [] /\ bytes_ok large /\ bytes_ok ipv4 /\
  refusal (w_c s) large = None /\ must_cut (w_c s) large = true /\ refusal (w_c s) ipv4 = None /\ must_cut (w_c s) ipv4 = false /\
  chopped (8 * ((path_mtu (w_c s) - 4) / 8)) pieces large /\
  exists s' s'', call plain_env (OInside large) s HE_SUCCESS s' /\ during sent s s' (fragments 0 0 pieces) /\
    call plain_env (OInside ipv4) s HE_SUCCESS s'' /\ during sent s s'' [data_message true 1 2 ipv4 0].
Proof.
  cbv zeta. split; [apply world_at_reached; vm_compute; reflexivity|]. split; [vm_compute; reflexivity|].
  split; [apply bytes_ok_dec; vm_compute; reflexivity|]. split; [apply bytes_ok_dec; vm_compute; reflexivity|].
  do 4 (split; [vm_compute; reflexivity|]). split.
  - split; [vm_compute; reflexivity|]. split; [repeat constructor; vm_compute; congruence|].
    intros i Hi. destruct i as [|i]; [vm_compute; reflexivity|]. cbn in Hi. lia.
  - exists (world_of (match run plain_env 0 [OInside large] (world_at client_up) with Done _ w => Done tt w | Stuck u w => Stuck u w end)).
    exists (world_of (match run plain_env 0 [OInside ipv4] (world_at client_up) with Done _ w => Done tt w | Stuck u w => Stuck u w end)).
    conj; vm_compute; reflexivity.
Qed.
(** A server gets both fragments, the last one first, and delivers the packet. *)
Example C33_example :
  let s := world_at client_up in let r := world_at server_up in
  exists r', run plain_env 0 (map OOutside fragment_datagrams) r = Done tt r' /\
    reached plain_env r /\ c_in_chain (w_c r) = [] /\ cb_inside (c_cbs (w_c r)) = true /\
    (c_vmaj (w_c r), c_vmin (w_c r)) = (c_vmaj (w_c s), c_vmin (w_c s)) /\
    place_free (w_c r) 0 /\
    during act r r' (acts [((HE_STATE_ONLINE, nth 1 (fragments 0 0 pieces) []), []);
                           ((HE_STATE_ONLINE, nth 0 (fragments 0 0 pieces) []), [large])]).
Proof.
  cbv zeta. exists (world_of (run plain_env 0 (map OOutside fragment_datagrams) (world_at server_up))).
  split; [vm_compute; reflexivity|]. split; [apply world_at_reached; vm_compute; reflexivity|].
  split; [vm_compute; reflexivity|]. split; [vm_compute; reflexivity|]. split; [vm_compute; reflexivity|]. split.
  - eexists. split; vm_compute; reflexivity.
  - vm_compute. reflexivity.
Qed.
