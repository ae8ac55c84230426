(** C51: a context keeps what was set, and a connection calls the callbacks that
    were registered. *)
From Verif Require Import Base Codes Ctx Config ConnState Conn ConnWpApi CredSpec SetProofs Props_Set Props_Ctx Settings SettingsSpec.
Unset Strict Implicit.

(** ** The context *)
Definition is_starting (o : sop) : bool := match o with SStart _ | SStartServer _ => true | _ => false end.
Lemma Val_pair (a c : Z) (b d : bytes) : Val (a, b) = Val (c, d) -> a = c /\ b = d.
Proof. intros H. assert ((a, b) = (c, d)) as E by congruence. now apply pair_equal_spec in E. Qed.
Lemma dn_step v s : len (s_dn s) = 51 -> exists rc f, do_dn v s = (rc, put_dn f s) /\ len f = 51 /\
  match v with
  | None => rc = HE_ERR_NULL_POINTER /\ f = s_dn s
  | Some v => rc = string_verdict (len (text v)) /\ (rc <> HE_SUCCESS -> f = s_dn s) /\ (rc = HE_SUCCESS -> cstr f = firstn 49 (text v))
  end.
Proof.
  intros L. unfold do_dn. destruct v as [v|].
  2:{ exists HE_ERR_NULL_POINTER, (s_dn s). split; [destruct s; reflexivity|]. auto. }
  destruct (@set_string_ok (s_dn s) v L) as (rc & f & Sf & Lf). rewrite Sf. exists rc, f. split; [reflexivity|]. split; [exact Lf|].
  rewrite (set_string_spec v L) in Sf. unfold string_verdict. fold (text v) in Sf. unfold text in *. set (t := cstr (u8s v)) in *.
  destruct (len t =? 0); [|destruct (Z.ltb_spec 50 (len t))]; apply Val_pair in Sf as [<- <-].
  - split; [reflexivity|]. split; [reflexivity|discriminate].
  - split; [reflexivity|]. split; [reflexivity|discriminate].
  - split; [reflexivity|]. split; [congruence|intros _; apply stored_text; [apply cstr_idem|lia]].
Qed.
Lemma run_dn l : forall s, len (s_dn s) = 51 -> len (s_dn (srun s l)) = 51.
Proof.
  induction l as [|o l IH]; intros s L; [exact L|]. cbn [srun]. apply IH. destruct o; try exact L; cbn [sstep].
  - destruct (dn_step v L) as (rc & f & E & Lf & _). rewrite E. exact Lf.
  - unfold do_ca. destruct (_ =? _); [exact L|]. destruct (_ =? _); exact L.
  - unfold do_cert. destruct (_ || _); exact L.
  - unfold do_type. destruct (_ && _); exact L.
  - unfold do_min. cbv zeta. destruct (negb _); exact L.
  - unfold do_max. cbv zeta. destruct (negb _); exact L.
  - unfold do_start. destruct (ctx_start ws (view s)). exact L.
  - unfold do_start. destruct (ctx_start_server ws (view s)). exact L.
Qed.
(** A setting that each call treats as [f] says. *)
Lemma run_choice A (f : sop -> option A) (g : settings -> A) :
  (forall s o, len (s_dn s) = 51 -> g (snd (sstep s o)) = match f o with Some v => v | None => g s end) ->
  forall l s, len (s_dn s) = 51 -> g (srun s l) = last_choice f l (g s).
Proof.
  intros H. induction l as [|o l IH]; intros s L; [reflexivity|]. cbn [srun last_choice]. rewrite IH by (exact (@run_dn [o] s L)). now rewrite H.
Qed.
Ltac step o := destruct o; try reflexivity; cbn [sstep];
  try match goal with
  | |- context [do_dn ?v ?s] => match goal with L : len (s_dn s) = 51 |- _ => destruct (dn_step v L) as (? & ? & -> & _); reflexivity end
  | |- context [do_ca] => unfold do_ca; destruct (_ =? _); [reflexivity|]; destruct (_ =? _); reflexivity
  | |- context [do_cert] => unfold do_cert; destruct (_ || _); reflexivity
  | |- context [do_type] => unfold do_type; destruct (_ && _); reflexivity
  | |- context [do_min] => unfold do_min; cbv zeta; destruct (negb _); reflexivity
  | |- context [do_max] => unfold do_max; cbv zeta; destruct (negb _); reflexivity
  | |- context [do_start ?f ?ws ?s] => unfold do_start; destruct (f ws (view s)); reflexivity
  end.

(** After any calls the context has what was chosen last: server name, cipher,
    certificates, connection type, roaming, padding, aggressive mode, PQC and the
    number of fragment entries. *)
Theorem C51_context : forall l, let s := srun settings_new l in
  get_dn s = last_choice chooses_dn l [] /\ s_chacha s = last_choice chooses_chacha l false /\
  (s_ca s, s_ca_size s) = last_choice chooses_ca l (0, 0) /\ (s_cert s, s_key s) = last_choice chooses_cert l (0, 0) /\
  s_type s = last_choice chooses_type l 0 /\ s_noroam s = last_choice chooses_roam l false /\ s_padding s = last_choice chooses_padding l 0 /\
  s_aggr s = last_choice chooses_aggr l false /\ s_pqc s = last_choice chooses_pqc l false /\ s_frag s = last_choice chooses_frag l 0.
Proof.
  intros l s. subst s. split; [|split; [|split; [|split; [|split; [|split; [|split; [|split; [|split]]]]]]]].
  - apply (run_choice (f := chooses_dn) (g := get_dn)); [|reflexivity]. intros s o L. step o. cbn [chooses_dn].
    destruct (dn_step v L) as (rc & f & -> & _ & H). unfold get_dn. cbn [snd put_dn s_dn]. destruct v as [v|]; [|destruct H as [_ ->]; reflexivity].
    destruct H as (Hr & No & Yes). unfold string_verdict in Hr. pose proof (len_nonneg (text v)).
    destruct (Z.eqb_spec (len (text v)) 0); [|destruct (Z.ltb_spec 50 (len (text v)))]; destruct (Z.leb_spec 1 (len (text v))); try lia; destruct (Z.leb_spec (len (text v)) 50); try lia; cbn [andb]; subst rc;
    first [rewrite No by discriminate; reflexivity|exact (Yes eq_refl)].
  - apply (run_choice (f := chooses_chacha) (g := s_chacha)); [|reflexivity]. intros s o L. step o.
  - apply (run_choice (f := chooses_ca) (g := fun s => (s_ca s, s_ca_size s))); [|reflexivity]. intros s o L. step o. cbn [chooses_ca]. unfold do_ca. destruct (p =? 0); [reflexivity|]. cbn [orb]. destruct (n =? 0); reflexivity.
  - apply (run_choice (f := chooses_cert) (g := fun s => (s_cert s, s_key s))); [|reflexivity]. intros s o L. step o. cbn [chooses_cert]. unfold do_cert. destruct (_ || _); reflexivity.
  - apply (run_choice (f := chooses_type) (g := s_type)); [|reflexivity]. intros s o L. step o. cbn [chooses_type]. unfold do_type, HE_CONNECTION_TYPE_STREAM, HE_CONNECTION_TYPE_DATAGRAM.
    destruct (Z.eqb_spec t 1), (Z.eqb_spec t 0); reflexivity.
  - apply (run_choice (f := chooses_roam) (g := s_noroam)); [|reflexivity]. intros s o L. step o.
  - apply (run_choice (f := chooses_padding) (g := s_padding)); [|reflexivity]. intros s o L. step o.
  - apply (run_choice (f := chooses_aggr) (g := s_aggr)); [|reflexivity]. intros s o L. step o.
  - apply (run_choice (f := chooses_pqc) (g := s_pqc)); [|reflexivity]. intros s o L. step o.
  - apply (run_choice (f := chooses_frag) (g := s_frag)); [|reflexivity]. intros s o L. step o. cbn [sstep chooses_frag]. unfold do_frag. cbn [snd put_frag s_frag].
    change MAX_FRAGMENT_ENTRIES with 65536. destruct (Z.ltb_spec 65536 n); lia.
Qed.
Print Assumptions C51_context.

Lemma run_pointer k l s : len (s_dn s) = 51 -> pointer k (s_ptrs (srun s l)) = last_choice (registers k) l (pointer k (s_ptrs s)).
Proof. apply (run_choice (f := registers k) (g := fun s => pointer k (s_ptrs s))). clear. intros s o L. destruct k; step o. Qed.
Theorem C51_callbacks : forall l k, pointer k (s_ptrs (srun settings_new l)) = last_choice (registers k) l 0.
Proof. intros l k. rewrite run_pointer by reflexivity. destruct k; reflexivity. Qed.
Print Assumptions C51_callbacks.

(** What the calls return; a refused call (other than a start) changes nothing. *)
Theorem C51_refused : forall l o rc s', let s := srun settings_new l in sstep s o = (rc, s') -> is_starting o = false ->
  (rc <> HE_SUCCESS -> s' = s) /\
  rc = match o with
       | SDn None => HE_ERR_NULL_POINTER
       | SDn (Some v) => string_verdict (len (text v))
       | SCa p n => if p =? 0 then HE_ERR_NULL_POINTER else if n =? 0 then HE_ERR_ZERO_SIZE else HE_SUCCESS
       | SCert p q => if (p =? 0) || (q =? 0) then HE_ERR_NULL_POINTER else HE_SUCCESS
       | SType t => if (t =? 0) || (t =? 1) then HE_SUCCESS else HE_ERR_INVALID_CONNECTION_TYPE
       | SMin a b | SMax a b => if (u8 a =? 0) && (u8 b =? 0) || (u8 a =? 1) && (u8 b <=? 2) then HE_SUCCESS else HE_ERR_INCORRECT_PROTOCOL_VERSION
       | _ => HE_SUCCESS
       end.
Proof.
  intros l o rc s' s H St. assert (len (s_dn s) = 51) as L by (apply run_dn; reflexivity). clearbody s.
  assert (forall a b, 0 <= a < 256 -> 0 <= b < 256 -> ((a =? 0) && (b =? 0)) = false -> is_valid_wire_version a b = ((a =? 1) && (b <=? 2))) as W.
  { intros a b Ha Hb N. unfold is_valid_wire_version, HE_WIRE_MINIMUM_PROTOCOL_MAJOR_VERSION, HE_WIRE_MINIMUM_PROTOCOL_MINOR_VERSION, HE_WIRE_MAXIMUM_PROTOCOL_MAJOR_VERSION, HE_WIRE_MAXIMUM_PROTOCOL_MINOR_VERSION.
    destruct (Z.ltb_spec a 1), (Z.eqb_spec a 1), (Z.ltb_spec b 0), (Z.ltb_spec 1 a), (Z.ltb_spec 2 b), (Z.leb_spec b 2); try lia; reflexivity. }
  destruct o; cbn [sstep is_starting] in *; try discriminate St; try (injection H as <- <-; split; [congruence|reflexivity]).
  - destruct (dn_step v L) as (rc1 & f & E & _ & D). rewrite E in H. injection H as <- <-. destruct v as [v|].
    + destruct D as (Hr & No & _). split; [|exact Hr]. intros N. rewrite (No N). destruct s; reflexivity.
    + destruct D as [-> ->]. split; [|reflexivity]. intros _. destruct s; reflexivity.
  - unfold do_ca in H. destruct (p =? 0); [|destruct (n =? 0)]; injection H as <- <-; (split; [congruence|reflexivity]).
  - unfold do_cert in H. destruct (_ || _); injection H as <- <-; (split; [congruence|reflexivity]).
  - unfold do_type, HE_CONNECTION_TYPE_STREAM, HE_CONNECTION_TYPE_DATAGRAM in H. destruct (t =? 1), (t =? 0); injection H as <- <-; (split; [congruence|reflexivity]).
  - unfold do_min in H. cbv zeta in H. destruct ((u8 a =? 0) && (u8 b =? 0)) eqn:Z0; cbn [orb].
    + change (negb (is_valid_wire_version _ _)) with false in H. injection H as <- <-. split; [congruence|reflexivity].
    + rewrite W in H by (auto using u8_range). destruct ((u8 a =? 1) && (u8 b <=? 2)); cbn [negb] in H; injection H as <- <-; (split; [congruence|reflexivity]).
  - unfold do_max in H. cbv zeta in H. destruct ((u8 a =? 0) && (u8 b =? 0)) eqn:Z0; cbn [orb].
    + change (negb (is_valid_wire_version _ _)) with false in H. injection H as <- <-. split; [congruence|reflexivity].
    + rewrite W in H by (auto using u8_range). destruct ((u8 a =? 1) && (u8 b <=? 2)); cbn [negb] in H; injection H as <- <-; (split; [congruence|reflexivity]).
Qed.
Print Assumptions C51_refused.

(** ** Queries *)
Lemma nth_cstr b : (nth 0 b 0 =? 0) = match cstr b with [] => true | _ => false end.
Proof. destruct b as [|x b]; [reflexivity|]. cbn [nth cstr]. destruct (x =? 0); reflexivity. Qed.
Definition yes (b : bool) : Z := if b then 1 else 0.
Theorem C51_queries : forall l, let s := srun settings_new l in
  answer s QDnSet = yes (negb (len (last_choice chooses_dn l []) =? 0)) /\ answer s QChacha = yes (last_choice chooses_chacha l false) /\
  answer s QCaSet = yes (negb (fst (last_choice chooses_ca l (0, 0)) =? 0)) /\
  answer s QCertSet = yes (negb (fst (last_choice chooses_cert l (0, 0)) =? 0) && negb (snd (last_choice chooses_cert l (0, 0)) =? 0)) /\
  answer s QStateSet = yes (negb (last_choice (registers CState) l 0 =? 0)) /\ answer s QInsideSet = yes (negb (last_choice (registers CInside) l 0 =? 0)) /\
  answer s QOutsideSet = yes (negb (last_choice (registers COutside) l 0 =? 0)) /\ answer s QNetcfgSet = yes (negb (last_choice (registers CNetcfg) l 0 =? 0)) /\
  answer s QNudgeSet = yes (negb (last_choice (registers CNudge) l 0 =? 0)) /\
  answer s QAuthSet = yes (negb (last_choice (registers CAuth) l 0 =? 0) || negb (last_choice (registers CAuthbuf) l 0 =? 0)) /\
  answer s QRoamOff = yes (last_choice chooses_roam l false) /\ answer s QPadding = last_choice chooses_padding l 0.
Proof.
  intros l s. destruct (C51_context l) as (A1 & A2 & A3 & A4 & _ & A6 & A7 & _). fold s in A1, A2, A3, A4, A6, A7. pose proof (C51_callbacks l) as K. fold s in K.
  rewrite <- A1, <- A2, <- A3, <- A4, <- A6, <- A7, <- !K. unfold answer, yes, bool_of, get_dn, is_dn_set. cbn [pointer fst snd].
  split; [rewrite nth_cstr; cbn [view x_dn]; destruct (cstr (s_dn s)); [reflexivity|rewrite len_cons; destruct (Z.eqb_spec (len b + 1) 0) as [Q|Q]; [pose proof (len_nonneg b); lia|]]; destruct (Z.eqb_spec (1 + len b) 0) as [Q2|Q2]; [pose proof (len_nonneg b); lia|reflexivity]|].
  split; [reflexivity|]. split; [destruct (s_ca s =? 0); reflexivity|]. split; [reflexivity|].
  split; [destruct (_ =? 0); reflexivity|]. split; [destruct (_ =? 0); reflexivity|]. split; [destruct (_ =? 0); reflexivity|]. split; [destruct (_ =? 0); reflexivity|]. split; [destruct (_ =? 0); reflexivity|].
  split; [reflexivity|]. split; reflexivity.
Qed.
Print Assumptions C51_queries.
(** Versions: supported are those from the minimum to the maximum of the context (major
    numbers first), the latest is the maximum; [view] gives C36 these numbers. *)
Theorem C51_versions : forall s a b, 0 <= a < 256 -> 0 <= b < 256 ->
  (answer s (QSupported a b) = 1 <-> ver_le (s_min s) (a, b) /\ ver_le (a, b) (s_max s)) /\
  (answer s (QLatest a b) = 1 <-> s_max s = (a, b)) /\
  (forall q, q = QSupported a b \/ q = QLatest a b -> answer s q = 0 \/ answer s q = 1) /\
  ctx_min (view s) = s_min s /\ ctx_max (view s) = s_max s.
Proof.
  intros s a b A B. unfold answer, u8. rewrite !(Z.mod_small a 256), !(Z.mod_small b 256) by lia.
  assert (ctx_min (view s) = s_min s /\ ctx_max (view s) = s_max s) as [Mi Ma] by (unfold ctx_min, ctx_max; cbn; destruct (s_min s), (s_max s); split; reflexivity).
  split; [|split; [|split; [|split; [exact Mi|exact Ma]]]].
  - rewrite <- Mi, <- Ma, <- C18_admission. destruct (is_supported_version (view s) a b); split; congruence.
  - unfold is_latest_version. rewrite <- Ma. unfold ctx_max. destruct (Z.eqb_spec a (x_max_major (view s))) as [E|E], (Z.eqb_spec b (x_max_minor (view s))) as [F|F]; cbn [andb]; split; congruence.
  - intros q [-> | ->]; rewrite ?(Z.mod_small a 256), ?(Z.mod_small b 256) by lia; destruct (_ : bool); auto.
Qed.
Print Assumptions C51_versions.

(** Without a context every call fails and nothing is reported as set ... *)
Theorem C51_null_partial : (forall o, on_null o = HE_SUCCESS \/ on_null o = HE_ERR_NULL_POINTER) /\
  (forall o, on_null o = HE_SUCCESS -> exists k p, registers k o = Some p) /\
  (forall q, q <> QCertSet -> q <> QPadding -> null_answer q = 0).
Proof.
  split; [intros o; destruct o; auto|]. split.
  - intros o H. destruct o; try discriminate H.
    + now exists CState, p.
    + now exists CNudge, p.
    + now exists CInside, p.
    + now exists COutside, p.
    + now exists CNetcfg, p.
    + now exists CSrvcfg, p.
    + now exists CEvent, p.
    + now exists CAuth, p.
    + now exists CAuthtok, p.
    + now exists CAuthbuf, p.
    + now exists CPopulate, p.
    + now exists CPmtime, p.
    + now exists CPmstate, p.
  - intros q N1 N2. destruct q; auto; congruence.
Qed.
Print Assumptions C51_null_partial.
(** ... except that the server certificate is reported as set, and the padding type
    is none of the three. *)
Theorem C51_null_refuted : null_answer QCertSet = 1 /\ null_answer QPadding <> HE_PADDING_NONE /\ null_answer QPadding <> HE_PADDING_FULL /\ null_answer QPadding <> HE_PADDING_450.
Proof. split; [reflexivity|]. split; [discriminate|]. split; discriminate. Qed.
Print Assumptions C51_null_refuted.
(** he_ssl_ctx_is_auth_cb_set does not know the callback for tokens: a server that
    only accepts tokens cannot be started. *)
Definition token_server (ws : wolf_start) : list sop := [SOutside 1; SCert 2 3; SPopulate 4; SAuthtok 5].
Theorem C51_token_refuted : forall ws, exists l, last_choice (registers CAuthtok) l 0 = 5 /\ answer (srun settings_new l) QAuthSet = 0 /\
  sstep (srun settings_new l) (SStartServer ws) = (HE_ERR_CONF_AUTH_CB_NOT_SET, srun settings_new l).
Proof. intros ws. exists (token_server ws). split; [reflexivity|]. split; reflexivity. Qed.
Print Assumptions C51_token_refuted.

(** ** The rest of the model sees the same context *)
Definition ctx_ops (s : settings) (o : sop) : list ctx_op :=
  let x := view s in
  match o with
  | SCa p n => if p =? 0 then [] else [XSetCa n]
  | SCert p q => if (p =? 0) || (q =? 0) then [] else [XSetCertKey]
  | SType t => [XSetType t] | SFrag n => [XSetMaxFrag n] | SMin a b => [XSetMin a b] | SMax a b => [XSetMax a b]
  | SStart ws => [XStart ws] | SStartServer ws => [XStartServer ws]
  | SDn _ => []
  | SChacha b => [XSetFlags (x_no_roaming x) (x_padding x) (x_aggressive x) (x_pqc x) b]
  | SNoRoam => [XSetFlags true (x_padding x) (x_aggressive x) (x_pqc x) (x_chacha x)]
  | SPadding v => [XSetFlags (x_no_roaming x) v (x_aggressive x) (x_pqc x) (x_chacha x)]
  | SAggr => [XSetFlags (x_no_roaming x) (x_padding x) true (x_pqc x) (x_chacha x)]
  | SPqc b => [XSetFlags (x_no_roaming x) (x_padding x) (x_aggressive x) b (x_chacha x)]
  | _ => [XSetCbs (flags (s_ptrs (snd (sstep s o))))]
  end.
Lemma start_fields f ws s : (f = ctx_start \/ f = ctx_start_server) ->
  let x := snd (f ws (view s)) in exists w io a b c d, x = set_x_max c d (set_x_min a b (set_x_wolf w io (view s))).
Proof.
  intros F. assert (forall x, exists w io a b c d, x = view s -> x = set_x_max c d (set_x_min a b (set_x_wolf w io (view s)))) as R0.
  { intros x. exists (x_wolf x), (x_io x), (x_min_major x), (x_min_minor x), (x_max_major x), (x_max_minor x). intros ->. reflexivity. }
  destruct (R0 (view s)) as (w0 & io0 & a0 & b0 & c0 & d0 & R). specialize (R eq_refl).
  assert (forall x, (exists w io, x = set_x_wolf w io (view s)) -> forall ws, exists w io a b c d, snd (ctx_start_common ws x) = set_x_max c d (set_x_min a b (set_x_wolf w io (view s)))) as C.
  { intros x (w & io & ->) ws'. unfold ctx_start_common. cbv zeta. exists w, (s_type s), 1, 0, 1, 2. destruct (_ && _); reflexivity. }
  assert (exists w io, ctx_new_wolf ws (view s) = set_x_wolf w io (view s)) as N.
  { unfold ctx_new_wolf. destruct (_ || _); [repeat eexists|]. exists (s_wolf s), (s_io s). reflexivity. }
  assert (forall x, (exists w io, x = set_x_wolf w io (view s)) -> exists w io a b c d, x = set_x_max c d (set_x_min a b (set_x_wolf w io (view s)))) as U.
  { intros x (w & io & ->). exists w, io, (fst (s_min s)), (snd (s_min s)), (fst (s_max s)), (snd (s_max s)). reflexivity. }
  destruct F as [-> | ->]; cbv zeta.
  - unfold ctx_start. cbv zeta. destruct (negb _); [repeat eexists; exact R|]. destruct (negb _); [now apply U|]. destruct (negb _); [now apply U|]. destruct (_ && _); [now apply U|]. destruct (negb _); [now apply U|]. now apply C.
  - unfold ctx_start_server. cbv zeta. destruct (negb _); [repeat eexists; exact R|]. repeat (destruct (negb _); [now apply U|]). now apply C.
Qed.
Theorem C51_refines : forall s o, (forall v, o <> SDn v) ->
  view (snd (sstep s o)) = ctx_run (view s) (ctx_ops s o) /\
  (ctx_ops s o <> [] -> forall x, ctx_ops s o = [x] -> fst (sstep s o) = fst (ctx_step (view s) x)).
Proof.
  intros s o N. destruct o; try (now destruct (N v)); try (split; [reflexivity|intros _ x Q; injection Q as <-; reflexivity]); cbn [ctx_ops sstep].
  - unfold do_ca. destruct (p =? 0) eqn:P; [split; [reflexivity|congruence]|]. cbn [ctx_run ctx_step]. unfold ctx_set_ca. destruct (n =? 0) eqn:Q; (split; [|intros _ x X; injection X as <-; cbn [ctx_step]; unfold ctx_set_ca; rewrite Q; reflexivity]); [reflexivity|].
    unfold view, put_ca. cbn. now rewrite P.
  - unfold do_cert. destruct (cert =? 0) eqn:P; [split; [reflexivity|cbn [orb]; congruence]|]. destruct (key =? 0) eqn:Q; [split; [reflexivity|cbn [orb]; congruence]|]. cbn [orb]. split; [|intros _ x X; injection X as <-; reflexivity].
    unfold view. cbn. now rewrite P, Q.
  - split; [|intros _ x X; injection X as <-]; cbn [ctx_run ctx_step]; unfold do_type, ctx_set_type; destruct (_ && _); reflexivity.
  - split; [|intros _ x X; injection X as <-]; cbn [ctx_run ctx_step]; unfold do_min, ctx_set_min; cbv zeta; destruct (negb _); reflexivity.
  - split; [|intros _ x X; injection X as <-]; cbn [ctx_run ctx_step]; unfold do_max, ctx_set_max; cbv zeta; destruct (negb _); reflexivity.
  - destruct (@start_fields ctx_start ws s (or_introl eq_refl)) as (w & io & a & b & c & d & Q). split; [|intros _ x X; injection X as <-]; cbn [ctx_run ctx_step]; unfold do_start; destruct (ctx_start ws (view s)) as [rc x]; [|reflexivity].
    cbn [snd] in *. rewrite Q. reflexivity.
  - destruct (@start_fields ctx_start_server ws s (or_intror eq_refl)) as (w & io & a & b & c & d & Q). split; [|intros _ x X; injection X as <-]; cbn [ctx_run ctx_step]; unfold do_start; destruct (ctx_start_server ws (view s)) as [rc x]; [|reflexivity].
    cbn [snd] in *. rewrite Q. reflexivity.
Qed.
Print Assumptions C51_refines.
(** The callbacks of a connection: copied by a connect, two of them cut off by a
    disconnect, as in Conn.v. *)
Theorem C51_conn_refines : forall s inp outp c p,
  c_cbs (configure_fields (view s) inp outp c) = flags (copy (s_ptrs s)) /\
  flags (cut_off p) = (let k := flags p in
    Cbs (cb_state k) (cb_nudge k) false false (cb_netcfg k) (cb_srvcfg k) (cb_event k)
        (cb_auth k) (cb_authtok k) (cb_authbuf k) (cb_populate k) (cb_pmtime k) (cb_pmstate k)).
Proof. intros s inp outp c p. split; [|reflexivity]. unfold configure_fields. cbv zeta. reflexivity. Qed.
Print Assumptions C51_conn_refines.
(** The rest of the library sees a callback as set exactly if the pointer
    registered last is not NULL; likewise a connection made with the context. *)
Definition flag (k : callback_kind) (b : cbs) : bool :=
  match k with
  | CState => cb_state b | CNudge => cb_nudge b | CInside => cb_inside b | COutside => cb_outside b | CNetcfg => cb_netcfg b | CSrvcfg => cb_srvcfg b | CEvent => cb_event b
  | CAuth => cb_auth b | CAuthtok => cb_authtok b | CAuthbuf => cb_authbuf b | CPopulate => cb_populate b | CPmtime => cb_pmtime b | CPmstate => cb_pmstate b
  end.
Theorem C51_registered : forall l k inp outp c, let x := view (srun settings_new l) in
  (flag k (x_cbs x) = true <-> last_choice (registers k) l 0 <> 0) /\
  (flag k (c_cbs (configure_fields x inp outp c)) = true <-> last_choice (registers k) l 0 <> 0) /\
  view settings_new = ctx_new.
Proof.
  intros l k inp outp c x. assert (flag k (x_cbs x) = true <-> last_choice (registers k) l 0 <> 0) as H.
  { rewrite <- C51_callbacks. subst x. cbn [view x_cbs]. generalize (s_ptrs (srun settings_new l)). intros p.
    assert (forall z, negb (z =? 0) = true <-> z <> 0) as N by (intros z; rewrite negb_true_iff; apply Z.eqb_neq). destruct k; apply N. }
  split; [exact H|]. split; [|reflexivity]. rewrite <- H. subst x. destruct (@C51_conn_refines (srun settings_new l) inp outp c ptrs_null) as [-> _].
  cbn [view x_cbs]. unfold copy. destruct k; reflexivity.
Qed.
Print Assumptions C51_registered.

(** ** The callbacks a connection calls *)
Lemma hrun_app a : forall h b, hrun h (a ++ b) = hrun (hrun h a) b.
Proof. induction a as [|o a IH]; intros h b; [reflexivity|exact (IH _ _)]. Qed.
Lemma hrun_ctx i l : forall h, len (s_dn (h_ctx h i)) = 51 -> h_ctx (hrun h l) i = srun (h_ctx h i) (on i l).
Proof.
  induction l as [|o l IH]; intros h L; [reflexivity|]. cbn [hrun]. destruct o as [j o|j| |p]; [|exact (IH (hstep h (HConnect j)) L)|exact (IH (hstep h HDisconnect) L)|exact (IH (hstep h (HData p)) L)].
  cbn [on flat_map]. fold (on i l). destruct (Z.eqb_spec j i) as [->|N].
  - rewrite IH; cbn [hstep h_ctx]; rewrite Z.eqb_refl; [reflexivity|]. exact (@run_dn [o] _ L).
  - assert ((i =? j) = false) as Q by (apply Z.eqb_neq; congruence). rewrite IH; cbn [hstep h_ctx]; rewrite Q; [reflexivity|exact L].
Qed.
(** After a connect with context [i] and until the next one, the function called is
    the one registered last on that context before the connect: whatever is done
    with this or other contexts afterwards.  A disconnect removes the two that write. *)
Theorem C51_called : forall h i h2 k, forallb (fun o => negb (is_connect o)) h2 = true ->
  pointer k (h_conn (hrun host_new (h ++ HConnect i :: h2))) =
  match k with
  | CInside | COutside => if existsb is_disconnect h2 then 0 else last_choice (registers k) (on i h) 0
  | _ => last_choice (registers k) (on i h) 0
  end.
Proof.
  intros h i h2 k N. rewrite hrun_app. cbn [hrun]. set (g := hrun host_new h).
  assert (pointer k (copy (s_ptrs (h_ctx g i))) = last_choice (registers k) (on i h) 0) as <-.
  { rewrite <- C51_callbacks. unfold g. rewrite hrun_ctx by reflexivity. destruct k; reflexivity. }
  cbn [hstep]. set (p := copy _). clearbody p. set (g1 := Host _ p _). assert (h_conn g1 = p) as Q by reflexivity. clearbody g1. revert p g1 Q.
  induction h2 as [|o h2 IH]; intros p g1 Q; cbn [hrun existsb].
  { rewrite Q. destruct k; reflexivity. }
  cbn [forallb] in N. apply andb_true_iff in N as [N0 N]. specialize (IH N). destruct o as [j o|j| |q]; cbn [is_connect negb is_disconnect orb] in *; try discriminate N0; try (apply IH; exact Q).
  rewrite (IH (cut_off p)) by (cbn [hstep h_conn]; now rewrite Q). destruct k; try reflexivity; now destruct (existsb is_disconnect h2).
Qed.
Print Assumptions C51_called.
(** The pointer passed to the callbacks is the last one attached. *)
Theorem C51_data : forall h, h_data (hrun host_new h) = attached h.
Proof.
  intros h. unfold attached. change 0 with (h_data host_new) at 2. generalize host_new as g. induction h as [|o h IH]; intros g; [reflexivity|]. cbn [hrun fold_left]. rewrite IH. destruct o; reflexivity.
Qed.
Print Assumptions C51_data.

(** ** Non-vacuity *)
(** Two contexts; the connection keeps the callbacks of the first one as they were. *)
Definition two_contexts : list hop := [HData 9; HCtx 1 (SState 11); HCtx 1 (SInside 12); HCtx 2 (SState 21); HCtx 1 (SDn (Some [97; 98])); HCtx 1 (SState 13)].
Example two_contexts_ex : let g := hrun host_new (two_contexts ++ HConnect 1 :: [HCtx 1 (SState 14); HCtx 2 (SInside 22); HData 0]) in
  pointer CState (h_conn g) = 13 /\ pointer CInside (h_conn g) = 12 /\ h_data g = 9 /\ get_dn (h_ctx g 1) = [97; 98] /\ answer (h_ctx g 2) QStateSet = 1 /\
  pointer CState (h_conn (hstep g HDisconnect)) = 13 /\ pointer CInside (h_conn (hstep g HDisconnect)) = 0.
Proof. repeat split; vm_compute; reflexivity. Qed.
Example refused_ex : exists s', sstep (srun settings_new [SType 1]) (SType 2) = (HE_ERR_INVALID_CONNECTION_TYPE, s') /\ s_type s' = 1.
Proof. eexists. split; reflexivity. Qed.
