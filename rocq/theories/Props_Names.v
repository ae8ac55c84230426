(** C37: names of codes.  [..._decl] are the declared constants (from the
    header), [he_..._name] the functions (from utils.c). *)
From Coq Require Import String.
From Verif Require Import Base Codes Names.

Lemma switch_in cases d v :
  In (switch cases d v) (map snd cases) \/ switch cases d v = d.
Proof.
  induction cases as [|[c s] t IH]; simpl; auto.
  destruct (v =? c); auto. tauto.
Qed.
Lemma switch_default cases d v :
  ~ In v (map fst cases) -> switch cases d v = d.
Proof.
  induction cases as [|[c s] t IH]; simpl; auto.
  intros H; destruct (v =? c) eqn:E; [lia|tauto].
Qed.
Lemma switch_forall (P : Z * string -> bool) l :
  forallb P l = true -> forall c s, In (c, s) l -> P (c, s) = true.
Proof. intros H c s Hi; rewrite forallb_forall in H; auto. Qed.

(** Every declared return code other than HE_ERR_CANNOT_ENABLE_CH_FRAG is named
    by its own spelling; every value that is not declared gets the fallback. *)
Definition named_ok (f : Z -> string) (decl : list (Z * string)) (d : string) : Prop :=
  (forall c s, In (c, s) decl -> f c = s) /\
  (forall v, ~ In v (map fst decl) -> f v = d) /\
  (forall c1 s1 c2 s2, In (c1, s1) decl -> In (c2, s2) decl -> f c1 = f c2 -> c1 = c2).

Definition chk (f : Z -> string) (decl : list (Z * string)) : bool :=
  forallb (fun p => String.eqb (f (fst p)) (snd p)) decl &&
  forallb (fun p => forallb (fun q => negb (String.eqb (snd p) (snd q)) || (fst p =? fst q)) decl) decl.
Lemma chk_ok cases decl d :
  chk (switch cases d) decl = true ->
  forallb (fun c => existsb (Z.eqb c) (map fst decl)) (map fst cases) = true ->
  named_ok (switch cases d) decl d.
Proof.
  unfold chk; intros H Hc; apply andb_prop in H as [H1 H2]. repeat split.
  - intros c s Hi. rewrite forallb_forall in H1. apply H1 in Hi; simpl in Hi.
    now apply String.eqb_eq.
  - intros v Hv; apply switch_default; intros Hi; apply Hv.
    rewrite forallb_forall in Hc. apply Hc in Hi. apply existsb_exists in Hi as (x & Hx & E).
    apply Z.eqb_eq in E; now subst.
  - intros c1 s1 c2 s2 Hi1 Hi2 E. rewrite forallb_forall in H1, H2.
    pose proof (H1 _ Hi1) as A1; pose proof (H1 _ Hi2) as A2; simpl in A1, A2.
    apply String.eqb_eq in A1, A2. rewrite A1, A2 in E.
    specialize (H2 _ Hi1). rewrite forallb_forall in H2. specialize (H2 _ Hi2). simpl in H2.
    apply orb_prop in H2 as [H2|H2]; [|now apply Z.eqb_eq].
    rewrite E, String.eqb_refl in H2; discriminate.
Qed.

(** The declared return codes without the one the switch forgets. *)
Definition return_code_decl' : list (Z * string) :=
  filter (fun p => negb (fst p =? HE_ERR_CANNOT_ENABLE_CH_FRAG)) return_code_decl.

Theorem C37_return_code_name_partial :
  named_ok he_return_code_name return_code_decl' "HE_ERR_UNKNOWN".
Proof. apply chk_ok; vm_compute; reflexivity. Qed.

Theorem C37_client_state_name :
  named_ok he_client_state_name conn_state_decl "HE_STATE_UNKNOWN".
Proof. apply chk_ok; vm_compute; reflexivity. Qed.

Theorem C37_client_event_name :
  named_ok he_client_event_name conn_event_decl "HE_EVENT_UNKNOWN".
Proof. apply chk_ok; vm_compute; reflexivity. Qed.

Theorem C37_protocol_name :
  named_ok he_connection_protocol_name protocol_decl "HE_CONNECTION_PROTOCOL_UNKNOWN".
Proof. apply chk_ok; vm_compute; reflexivity. Qed.

Theorem C37_pmtud_state_name :
  named_ok he_pmtud_state_name pmtud_state_decl "HE_STATE_UNKNOWN".
Proof. apply chk_ok; vm_compute; reflexivity. Qed.

(** A declared code, returned by he_conn_server_connect, has no name. *)
Theorem C37_return_code_name_refuted :
  exists c s, In (c, s) return_code_decl /\ he_return_code_name c <> s /\
              he_return_code_name c = "HE_ERR_UNKNOWN"%string.
Proof.
  exists HE_ERR_CANNOT_ENABLE_CH_FRAG, "HE_ERR_CANNOT_ENABLE_CH_FRAG"%string.
  split; [vm_compute; tauto|]. split; [vm_compute; discriminate|reflexivity].
Qed.

(** Non-vacuity: the tables are the real ones. *)
Example return_code_decl_size : length return_code_decl = 61%nat.
Proof. reflexivity. Qed.
Example name_of_bad_fragment : he_return_code_name (-60) = "HE_ERR_BAD_FRAGMENT"%string.
Proof. reflexivity. Qed.

Print Assumptions C37_return_code_name_partial.
Print Assumptions C37_return_code_name_refuted.
Print Assumptions C37_client_state_name.
Print Assumptions C37_client_event_name.
Print Assumptions C37_protocol_name.
Print Assumptions C37_pmtud_state_name.
