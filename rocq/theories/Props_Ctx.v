(** C18, C36: the wire version range of a context (src/he/ssl_ctx.c). *)
From Verif Require Import Base Codes Ctx.

(** ** Specification: versions in lexicographic order. *)
Definition ver_le (a b : Z * Z) : Prop :=
  fst a < fst b \/ (fst a = fst b /\ snd a <= snd b).
Definition known_version (v : Z * Z) : Prop := v = (1, 0) \/ v = (1, 1) \/ v = (1, 2).
Definition ctx_min (x : ctx) : Z * Z := (x_min_major x, x_min_minor x).
Definition ctx_max (x : ctx) : Z * Z := (x_max_major x, x_max_minor x).

(** C18: accepted exactly between the minimum and the maximum. *)
Theorem C18_admission : forall x ma mi,
  is_supported_version x ma mi = true <->
  ver_le (ctx_min x) (ma, mi) /\ ver_le (ma, mi) (ctx_max x).
Proof.
  intros x ma mi; unfold is_supported_version, ver_le, ctx_min, ctx_max; cbn [fst snd].
  destruct ((ma <? x_min_major x) || (x_max_major x <? ma)) eqn:A; [split; [discriminate|lia]|].
  destruct ((ma =? x_min_major x) && (mi <? x_min_minor x)) eqn:B; [split; [discriminate|lia]|].
  destruct ((ma =? x_max_major x) && (x_max_minor x <? mi)) eqn:C; [split; [discriminate|lia]|].
  split; [lia|auto].
Qed.

Lemma valid_wire_known ma mi :
  0 <= ma < 256 -> 0 <= mi < 256 ->
  (is_valid_wire_version ma mi = true <-> known_version (ma, mi)).
Proof.
  intros Ha Hi; unfold is_valid_wire_version, known_version.
  unfold HE_WIRE_MINIMUM_PROTOCOL_MAJOR_VERSION, HE_WIRE_MINIMUM_PROTOCOL_MINOR_VERSION,
    HE_WIRE_MAXIMUM_PROTOCOL_MAJOR_VERSION, HE_WIRE_MAXIMUM_PROTOCOL_MINOR_VERSION.
  split.
  - intros H. assert (ma = 1) by lia. assert (mi = 0 \/ mi = 1 \/ mi = 2) by lia.
    subst ma; destruct H1 as [->|[->| ->]]; auto.
  - intros [[= -> ->]|[[= -> ->]|[= -> ->]]]; reflexivity.
Qed.

(** C18: each setter accepts exactly 0.0 (meaning the default) and the known
    versions, stores what it accepts in its own bound only, and changes nothing
    when it refuses. *)
Theorem C18_set_minimum : forall x ma mi,
  0 <= ma < 256 -> 0 <= mi < 256 ->
  match ctx_set_min x ma mi with
  | (rc, x') =>
    ((ma, mi) = (0, 0) /\ rc = HE_SUCCESS /\ x' = set_x_min 1 0 x) \/
    (known_version (ma, mi) /\ rc = HE_SUCCESS /\ x' = set_x_min ma mi x) \/
    ((ma, mi) <> (0, 0) /\ ~ known_version (ma, mi) /\
     rc = HE_ERR_INCORRECT_PROTOCOL_VERSION /\ x' = x)
  end.
Proof.
  intros x ma mi Ha Hi; unfold ctx_set_min; cbv zeta.
  destruct ((ma =? 0) && (mi =? 0)) eqn:E.
  - left. assert (ma = 0 /\ mi = 0) as [-> ->] by lia. auto.
  - pose proof (valid_wire_known Ha Hi) as V.
    destruct (is_valid_wire_version ma mi); cbn [negb].
    + right; left; tauto.
    + right; right. repeat split; [intros [= -> ->]; discriminate|].
      intros K; apply V in K; discriminate.
Qed.

Theorem C18_set_maximum : forall x ma mi,
  0 <= ma < 256 -> 0 <= mi < 256 ->
  match ctx_set_max x ma mi with
  | (rc, x') =>
    ((ma, mi) = (0, 0) /\ rc = HE_SUCCESS /\ x' = set_x_max 1 2 x) \/
    (known_version (ma, mi) /\ rc = HE_SUCCESS /\ x' = set_x_max ma mi x) \/
    ((ma, mi) <> (0, 0) /\ ~ known_version (ma, mi) /\
     rc = HE_ERR_INCORRECT_PROTOCOL_VERSION /\ x' = x)
  end.
Proof.
  intros x ma mi Ha Hi; unfold ctx_set_max; cbv zeta.
  destruct ((ma =? 0) && (mi =? 0)) eqn:E.
  - left. assert (ma = 0 /\ mi = 0) as [-> ->] by lia. auto.
  - pose proof (valid_wire_known Ha Hi) as V.
    destruct (is_valid_wire_version ma mi); cbn [negb].
    + right; left; tauto.
    + right; right. repeat split; [intros [= -> ->]; discriminate|].
      intros K; apply V in K; discriminate.
Qed.

(** ** Histories of a context *)
Inductive ctx_op : Type :=
| XSetMin (ma mi : Z) | XSetMax (ma mi : Z)
| XSetType (t : Z) | XSetMaxFrag (n : Z) | XSetCa (n : Z) | XSetCertKey
| XSetCbs (k : cbs) | XSetFlags (noroam : bool) (pad : Z) (aggr pqc chacha : bool)
| XStart (ws : wolf_start) | XStartServer (ws : wolf_start).

Definition ctx_step (x : ctx) (o : ctx_op) : Z * ctx :=
  match o with
  | XSetMin a b => ctx_set_min x (u8 a) (u8 b)
  | XSetMax a b => ctx_set_max x (u8 a) (u8 b)
  | XSetType t => ctx_set_type x t
  | XSetMaxFrag n => ctx_set_max_frag x n
  | XSetCa n => ctx_set_ca x n
  | XSetCertKey => ctx_set_cert_key x
  | XSetCbs k => ctx_set_cbs x k
  | XSetFlags a b c d e => ctx_set_flags x a b c d e
  | XStart ws => ctx_start ws x
  | XStartServer ws => ctx_start_server ws x
  end.
Fixpoint ctx_run (x : ctx) (l : list ctx_op) : ctx :=
  match l with [] => x | o :: t => ctx_run (snd (ctx_step x o)) t end.

Definition is_start (o : ctx_op) : bool :=
  match o with XStart _ | XStartServer _ => true | _ => false end.

(** What a host would expect of the bounds: the last accepted setting wins.
    [want_min]/[want_max] compute it from the calls and their arguments. *)
Definition accept (v dflt old : Z * Z) : Z * Z :=
  if (fst v =? 0) && (snd v =? 0) then dflt
  else if (fst v =? 1) && (snd v <=? 2) && (0 <=? snd v) then v else old.
Fixpoint want_min (old : Z * Z) (l : list ctx_op) : Z * Z :=
  match l with
  | [] => old
  | XSetMin a b :: t => want_min (accept (u8 a, u8 b) (1, 0) old) t
  | _ :: t => want_min old t
  end.
Fixpoint want_max (old : Z * Z) (l : list ctx_op) : Z * Z :=
  match l with
  | [] => old
  | XSetMax a b :: t => want_max (accept (u8 a, u8 b) (1, 2) old) t
  | _ :: t => want_max old t
  end.

Lemma u8_range x : 0 <= u8 x < 256.
Proof. apply Z.mod_pos_bound; lia. Qed.

Lemma set_min_accept x a b :
  ctx_min (snd (ctx_set_min x (u8 a) (u8 b))) = accept (u8 a, u8 b) (1, 0) (ctx_min x) /\
  ctx_max (snd (ctx_set_min x (u8 a) (u8 b))) = ctx_max x.
Proof.
  pose proof (u8_range a) as Ha; pose proof (u8_range b) as Hb.
  pose proof (C18_set_minimum x Ha Hb) as H.
  destruct (ctx_set_min x (u8 a) (u8 b)) as [rc x']; unfold accept; cbn [fst snd].
  unfold known_version in H.
  destruct H as [(E & _ & ->)|[(K & _ & ->)|(N & K & _ & ->)]].
  - injection E as -> ->; split; reflexivity.
  - split; [|reflexivity].
    destruct ((u8 a =? 0) && (u8 b =? 0)) eqn:Z1.
    { destruct K as [[=]|[[=]|[=]]]; lia. }
    destruct ((u8 a =? 1) && (u8 b <=? 2) && (0 <=? u8 b)) eqn:Z2; [reflexivity|].
    destruct K as [[=]|[[=]|[=]]]; lia.
  - split; [|reflexivity].
    destruct ((u8 a =? 0) && (u8 b =? 0)) eqn:Z1.
    { exfalso; apply N; f_equal; lia. }
    destruct ((u8 a =? 1) && (u8 b <=? 2) && (0 <=? u8 b)) eqn:Z2; [|reflexivity].
    exfalso; apply K. assert (u8 a = 1) as -> by lia.
    assert (u8 b = 0 \/ u8 b = 1 \/ u8 b = 2) as [-> |[-> | ->]] by lia; auto.
Qed.
Lemma set_max_accept x a b :
  ctx_max (snd (ctx_set_max x (u8 a) (u8 b))) = accept (u8 a, u8 b) (1, 2) (ctx_max x) /\
  ctx_min (snd (ctx_set_max x (u8 a) (u8 b))) = ctx_min x.
Proof.
  pose proof (u8_range a) as Ha; pose proof (u8_range b) as Hb.
  pose proof (C18_set_maximum x Ha Hb) as H.
  destruct (ctx_set_max x (u8 a) (u8 b)) as [rc x']; unfold accept; cbn [fst snd].
  unfold known_version in H.
  destruct H as [(E & _ & ->)|[(K & _ & ->)|(N & K & _ & ->)]].
  - injection E as -> ->; split; reflexivity.
  - split; [|reflexivity].
    destruct ((u8 a =? 0) && (u8 b =? 0)) eqn:Z1.
    { destruct K as [[=]|[[=]|[=]]]; lia. }
    destruct ((u8 a =? 1) && (u8 b <=? 2) && (0 <=? u8 b)) eqn:Z2; [reflexivity|].
    destruct K as [[=]|[[=]|[=]]]; lia.
  - split; [|reflexivity].
    destruct ((u8 a =? 0) && (u8 b =? 0)) eqn:Z1.
    { exfalso; apply N; f_equal; lia. }
    destruct ((u8 a =? 1) && (u8 b <=? 2) && (0 <=? u8 b)) eqn:Z2; [|reflexivity].
    exfalso; apply K. assert (u8 a = 1) as -> by lia.
    assert (u8 b = 0 \/ u8 b = 1 \/ u8 b = 2) as [-> |[-> | ->]] by lia; auto.
Qed.

(** C36, the part that holds: in every history, as long as the context is not
    started (again), the bounds in force are the last accepted settings. *)
Theorem C36_range_kept_without_start_partial : forall l x,
  forallb (fun o => negb (is_start o)) l = true ->
  ctx_min (ctx_run x l) = want_min (ctx_min x) l /\
  ctx_max (ctx_run x l) = want_max (ctx_max x) l.
Proof.
  induction l as [|o l IH]; intros x H; [split; reflexivity|].
  cbn [forallb] in H; apply andb_prop in H as [Ho Hl].
  cbn [ctx_run]. destruct (IH (snd (ctx_step x o)) Hl) as [A B]. rewrite A, B.
  destruct o; cbn [is_start negb] in Ho; try discriminate;
    cbn [want_min want_max ctx_step];
    try (destruct (set_min_accept x ma mi) as [-> ->]; split; reflexivity);
    try (destruct (set_max_accept x ma mi) as [-> ->]; split; reflexivity).
  - unfold ctx_set_type.
    destruct (negb (t =? HE_CONNECTION_TYPE_STREAM) && negb (t =? HE_CONNECTION_TYPE_DATAGRAM));
      split; reflexivity.
  - split; reflexivity.
  - unfold ctx_set_ca; destruct (n =? 0); split; reflexivity.
  - split; reflexivity.
  - split; reflexivity.
  - split; reflexivity.
Qed.

(** C36: a successful start (client or server) always leaves 1.0 .. 1.2 in
    force, whatever the host had set before. *)
Theorem C36_start_resets : forall x o rc x',
  is_start o = true -> ctx_step x o = (rc, x') -> rc = HE_SUCCESS ->
  ctx_min x' = (1, 0) /\ ctx_max x' = (1, 2).
Proof.
  intros x o rc x' Ho H E; subst rc.
  assert (forall ws y, ctx_start_common ws y = (HE_SUCCESS, x') ->
                       ctx_min x' = (1, 0) /\ ctx_max x' = (1, 2)) as C.
  { intros ws y; unfold ctx_start_common.
    match goal with |- context [if ?b then _ else _] => destruct b end; [discriminate|].
    intros [= <-]; split; reflexivity. }
  destruct o; try discriminate; cbn [ctx_step] in H.
  - unfold ctx_start in H. cbv zeta in H.
    repeat (match type of H with context [if ?b then _ else _] => destruct b eqn:? end;
            try discriminate); try (apply C in H; exact H);
    try (injection H as H _; revert Heqb; rewrite H; discriminate).
  - unfold ctx_start_server in H. cbv zeta in H.
    repeat (match type of H with context [if ?b then _ else _] => destruct b eqn:? end;
            try discriminate); try (apply C in H; exact H);
    try (injection H as H _; revert Heqb; rewrite H; discriminate).
Qed.

Definition ws_ok : wolf_start := WolfStart true 1 1 1 1 0 1 1 1.
Definition cbs_server : cbs :=
  Cbs false false false true false false false true false false false false false.

(** C36 refuted: a server host that restricts the context to 1.2 before
    starting it ends up accepting 1.0. *)
Theorem C36_start_discards_range_refuted :
  exists l, let x := ctx_run ctx_new l in
    In (XSetMin 1 2) l /\ x_wolf x = true /\
    ctx_min (ctx_run ctx_new (firstn 3 l)) = (1, 2) /\
    is_supported_version x 1 0 = true.
Proof.
  exists [XSetCbs cbs_server; XSetCertKey; XSetMin 1 2; XStartServer ws_ok].
  cbn zeta. split; [simpl; tauto|]. repeat split; reflexivity.
Qed.

(** C36 refuted: min <= max is not maintained; such a started context refuses
    every version. *)
Theorem C36_min_above_max_refuted :
  exists l, let x := ctx_run ctx_new l in
    x_wolf x = true /\ ~ ver_le (ctx_min x) (ctx_max x) /\
    (forall ma mi, is_supported_version x ma mi = false).
Proof.
  exists [XSetCbs cbs_server; XSetCertKey; XStartServer ws_ok; XSetMin 1 2; XSetMax 1 0].
  cbn zeta. split; [reflexivity|]. split.
  - unfold ver_le; vm_compute. intros [H|[_ H]]; [discriminate|]. apply H; reflexivity.
  - intros ma mi. destruct (is_supported_version _ ma mi) eqn:E; auto.
    apply C18_admission in E. unfold ver_le in E.
    set (x := ctx_run _ _) in E. change (ctx_min x) with (1, 2) in E.
    change (ctx_max x) with (1, 0) in E. cbn [fst snd] in E. lia.
Qed.

(** ** Starting a context requires its mandatory settings. *)
Theorem C26_start_client : forall ws x rc x',
  ctx_start ws x = (rc, x') ->
  (rc = HE_SUCCESS -> cb_outside (x_cbs x) = true /\ x_ca x = true /\ x_wolf x' = true) /\
  (cb_outside (x_cbs x) = false -> rc = HE_ERR_CONF_OUTSIDE_WRITE_CB_NOT_SET /\ x' = x) /\
  (cb_outside (x_cbs x) = true -> x_ca x = false -> rc = HE_ERR_CONF_CA_NOT_SET /\ x' = x).
Proof.
  intros ws x rc x' H. unfold ctx_start, ctx_valid_client, ctx_valid_common in H.
  destruct (cb_outside (x_cbs x)) eqn:A; cbn [negb] in H;
    [|cbv in H; injection H as <- <-; repeat split; auto; discriminate].
  cbn [Z.eqb HE_SUCCESS negb] in H.
  destruct (x_ca x) eqn:B; cbn [negb] in H;
    [|cbv in H; injection H as <- <-; repeat split; auto; discriminate].
  cbn [Z.eqb HE_SUCCESS negb] in H.
  repeat split; auto; try discriminate.
  subst rc. cbv zeta in H.
  destruct (x_wolf (ctx_new_wolf ws x)) eqn:W; cbn [negb] in H; [|discriminate].
  revert H. repeat match goal with |- context [if ?b then _ else _] => destruct b eqn:? end;
    try discriminate.
  unfold ctx_start_common. match goal with |- context [if ?b then _ else _] => destruct b end;
    [discriminate|]. intros [= <-]. exact W.
Qed.
Theorem C26_start_server : forall ws x rc x',
  ctx_start_server ws x = (rc, x') ->
  rc = HE_SUCCESS ->
  cb_outside (x_cbs x) = true /\ x_cert_key x = true /\
  (cb_auth (x_cbs x) = true \/ cb_authbuf (x_cbs x) = true) /\ x_wolf x' = true.
Proof.
  intros ws x rc x' H Hrc; subst rc.
  unfold ctx_start_server, ctx_valid_server, ctx_valid_common in H.
  destruct (cb_outside (x_cbs x)) eqn:A; cbn [negb] in H; [|discriminate].
  cbn [Z.eqb HE_SUCCESS negb] in H.
  destruct (x_cert_key x) eqn:B; cbn [negb] in H; [|discriminate].
  destruct (is_auth_cb_set x) eqn:I; cbn [negb] in H; [|discriminate].
  cbn [Z.eqb HE_SUCCESS negb] in H. cbv zeta in H.
  destruct (x_wolf (ctx_new_wolf ws x)) eqn:W; cbn [negb] in H; [|discriminate].
  repeat split; auto.
  - unfold is_auth_cb_set in I; now apply orb_prop in I.
  - revert H. repeat match goal with |- context [if ?b then _ else _] => destruct b eqn:? end;
      try discriminate.
    unfold ctx_start_common. match goal with |- context [if ?b then _ else _] => destruct b end;
      [discriminate|]. intros [= <-]. exact W.
Qed.
(** A server whose host handles tokens only (auth_token_cb) cannot be started. *)
Theorem C26_token_only_server_refuted :
  exists x, cb_authtok (x_cbs x) = true /\ cb_outside (x_cbs x) = true /\ x_cert_key x = true /\
    forall ws, fst (ctx_start_server ws x) = HE_ERR_CONF_AUTH_CB_NOT_SET.
Proof.
  exists (ctx_run ctx_new
    [XSetCbs (Cbs false false false true false false false false true false false false false);
     XSetCertKey]).
  repeat split; reflexivity.
Qed.

(** Non-vacuity *)
Example admission_ex :
  is_supported_version (ctx_run ctx_new [XSetCbs cbs_server; XSetCertKey; XStartServer ws_ok]) 1 1 = true
  /\ is_supported_version (ctx_run ctx_new [XSetCbs cbs_server; XSetCertKey; XStartServer ws_ok]) 1 3 = false.
Proof. split; reflexivity. Qed.
Example start_ok :
  fst (ctx_start_server ws_ok (ctx_run ctx_new [XSetCbs cbs_server; XSetCertKey])) = HE_SUCCESS.
Proof. reflexivity. Qed.
Example set_min_ok : ctx_set_min ctx_new 1 1 = (HE_SUCCESS, set_x_min 1 1 ctx_new).
Proof. reflexivity. Qed.

Print Assumptions C18_admission.
Print Assumptions C18_set_minimum.
Print Assumptions C18_set_maximum.
Print Assumptions C36_range_kept_without_start_partial.
Print Assumptions C36_start_resets.
Print Assumptions C36_start_discards_range_refuted.
Print Assumptions C36_min_above_max_refuted.
Print Assumptions C26_start_client.
Print Assumptions C26_start_server.
Print Assumptions C26_token_only_server_refuted.
