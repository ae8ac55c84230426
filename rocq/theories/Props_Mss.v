(** C13 — MSS clamping.  Specification: [MssSpec.v]; model: [Mss.v]. *)
From Verif Require Import Base Codes Mss MssSpec MssProofs.

(** Never reads or writes outside the packet, terminates, keeps the length. *)
Theorem C13_clamp_mss_memory_safe :
  forall le p mss, bytes_ok p -> 0 <= mss < 65536 ->
  exists rc p', clamp_mss le p mss = Val (rc, p') /\ len p' = len p /\ bytes_ok p'.
Proof. exact clamp_total. Qed.
Print Assumptions C13_clamp_mss_memory_safe.

(** Which calls succeed. *)
Theorem C13_clamp_mss_result :
  forall le p mss rc p', bytes_ok p -> 0 <= mss < 65536 -> clamp_mss le p mss = Val (rc, p') ->
  (rc = HE_SUCCESS <-> 512 <= mss <= 1500 /\ 20 <= len p /\ ip_version p = 4).
Proof. exact clamp_rc. Qed.
Print Assumptions C13_clamp_mss_result.

(** Anything but a first-fragment TCP SYN with a too-large MSS is untouched. *)
Theorem C13_clamp_mss_unchanged :
  forall le p mss rc p', bytes_ok p -> 0 <= mss < 65536 -> clamp_mss le p mss = Val (rc, p') ->
  (forall v, mss_value_at p v -> be16_at p v <= mss) -> p' = p.
Proof. exact clamp_unchanged. Qed.
Print Assumptions C13_clamp_mss_unchanged.

(** A too-large MSS is lowered to exactly the clamp; only the MSS value and the
    TCP checksum bytes change. *)
Theorem C13_clamp_mss_lowers :
  forall le p mss rc p' v,
  bytes_ok p -> 512 <= mss <= 1500 -> clamp_mss le p mss = Val (rc, p') ->
  mss_value_at p v -> mss < be16_at p v ->
  rc = HE_SUCCESS /\ mss_value_at p' v /\ be16_at p' v = mss /\
  (forall j, 0 <= j -> j <> v -> j <> v + 1 ->
             j <> ip_hlen p + 16 -> j <> ip_hlen p + 17 -> byte_at p' j = byte_at p j).
Proof. exact clamp_lowers. Qed.
Print Assumptions C13_clamp_mss_lowers.

(** Checksum validity is kept when the MSS value is 16-bit aligned in the TCP
    header.  Missing (and false, see below): unaligned MSS values. *)
Theorem C13_clamp_mss_checksum_partial :
  forall le p mss rc p', bytes_ok p -> 0 <= mss < 65536 -> clamp_mss le p mss = Val (rc, p') ->
  well_formed_tcp p ->
  (forall v, mss_value_at p v -> Z.even (v - ip_hlen p) = true) ->
  tcp_checksum_valid p -> tcp_checksum_valid p'.
Proof. exact clamp_checksum. Qed.
Print Assumptions C13_clamp_mss_checksum_partial.

(** Finding: with a NOP before the MSS option, a valid SYN becomes a SYN with an
    invalid checksum (RFC 9293 allows options at any offset). *)
Theorem C13_clamp_mss_checksum_refuted :
  exists p mss rc p',
    bytes_ok p /\ 512 <= mss <= 1500 /\ clamp_mss true p mss = Val (rc, p') /\
    rc = HE_SUCCESS /\ well_formed_tcp p /\ mss_value_at p 43 /\
    tcp_checksum_valid p /\ ~ tcp_checksum_valid p'.
Proof. exact clamp_checksum_odd. Qed.
Print Assumptions C13_clamp_mss_checksum_refuted.

(** Non-vacuity: a real SYN meets every hypothesis, on both kinds of host. *)
Example C13_example :
  forall le, exists p',
    bytes_ok syn_even /\ well_formed_tcp syn_even /\ mss_value_at syn_even 42 /\
    Z.even (42 - ip_hlen syn_even) = true /\ tcp_checksum_valid syn_even /\
    clamp_mss le syn_even 1310 = Val (HE_SUCCESS, p') /\ be16_at p' 42 = 1310 /\
    tcp_checksum_valid p' /\ p' <> syn_even.
Proof.
  intros le. destruct le; (eexists; split; [apply byte_okb; reflexivity|];
  split; [unfold well_formed_tcp; vm_compute; intuition congruence|];
  split; [exact syn_even_mss|]; split; [reflexivity|]; split; [reflexivity|];
  split; [vm_compute; reflexivity|]; split; [reflexivity|]; split; [reflexivity|];
  vm_compute; congruence).
Qed.
