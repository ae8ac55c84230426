(** What MSS clamping is about, written from RFC 791 / RFC 9293 and without
    reference to the code in /repo or to the model in [Mss.v]. *)
From Verif Require Import Base.

(** Big-endian 16-bit field at byte [i]. *)
Definition byte_at (p : bytes) (i : Z) : Z := nth (Z.to_nat i) p 0.
Definition be16_at (p : bytes) (i : Z) : Z := 256 * byte_at p i + byte_at p (i + 1).

(** Fields of an IPv4/TCP packet. *)
Definition ip_version (p : bytes) : Z := byte_at p 0 / 16.
Definition ip_hlen (p : bytes) : Z := 4 * (byte_at p 0 mod 16).
Definition ip_proto (p : bytes) : Z := byte_at p 9.
(** bit 15 (reserved) and the 13-bit fragment offset, i.e. everything but DF and MF *)
Definition ip_frag_bits (p : bytes) : Z :=
  32768 * (be16_at p 6 / 32768) + be16_at p 6 mod 8192.
Definition tcp_hlen (p : bytes) : Z := 4 * (byte_at p (ip_hlen p + 12) / 16).
Definition tcp_syn (p : bytes) : Prop := Z.testbit (byte_at p (ip_hlen p + 13)) 1 = true.

(** [opt_at p i e k]: walking the TCP options that lie in [i, e), the walk
    reaches an option that starts at [k].  Kind 0 ends the list, kind 1 (NOP)
    is one byte, every other kind carries its size in the next byte.  (As RFC
    9293 requires of a receiver, an option whose size is 0 or runs past the end
    stops the walk.)  The MSS option is 4 bytes long, so the walk also stops
    when fewer than 4 bytes are left or when an MSS option (kind 2) is met. *)
Inductive opt_at (p : bytes) : Z -> Z -> Z -> Prop :=
| opt_here i e : 4 <= e - i -> opt_at p i e i
| opt_nop i e k : 4 <= e - i -> byte_at p i = 1 -> opt_at p (i + 1) e k -> opt_at p i e k
| opt_other i e k :
    4 <= e - i -> byte_at p i <> 0 -> byte_at p i <> 1 -> byte_at p i <> 2 ->
    0 < byte_at p (i + 1) <= e - i ->
    opt_at p (i + byte_at p (i + 1)) e k -> opt_at p i e k.

(** [mss_value_at p v]: the packet is the first fragment of a TCP SYN whose MSS
    option value is the 16-bit field at [v]. *)
Definition mss_value_at (p : bytes) (v : Z) : Prop :=
  20 <= len p /\ ip_version p = 4 /\ ip_proto p = 6 /\ ip_frag_bits p = 0 /\
  ip_hlen p + 20 <= len p /\ tcp_syn p /\
  ip_hlen p + tcp_hlen p <= len p /\
  opt_at p (ip_hlen p + 20) (ip_hlen p + tcp_hlen p) (v - 2) /\
  byte_at p (v - 2) = 2 /\ byte_at p (v - 1) = 4.

(** The Internet checksum (RFC 1071): one's complement sum of 16-bit
    big-endian words, an odd last byte being padded with a zero byte. *)
Fixpoint words (l : bytes) : list Z :=
  match l with
  | a :: b :: t => (256 * a + b) :: words t
  | [a] => [256 * a]
  | [] => []
  end.
Definition oc_add (a b : Z) : Z := let s := a + b in if 65536 <=? s then s - 65535 else s.
Definition ones_sum (ws : list Z) : Z := fold_left oc_add ws 0.

(** TCP checksum of an IPv4 packet: pseudo header (addresses, protocol, TCP
    length) plus the TCP segment sum to 0xFFFF. *)
Definition tcp_len (p : bytes) : Z := be16_at p 2 - ip_hlen p.
Definition pseudo_header (p : bytes) : bytes :=
  slice p 12 8 ++ [0; 6; tcp_len p / 256; tcp_len p mod 256].
Definition tcp_checksum_valid (p : bytes) : Prop :=
  ones_sum (words (pseudo_header p ++ slice p (ip_hlen p) (tcp_len p))) = 65535.

(** A packet whose IP total length covers its TCP header and is all there. *)
Definition well_formed_tcp (p : bytes) : Prop :=
  20 <= ip_hlen p /\ 20 <= tcp_hlen p <= tcp_len p /\ ip_hlen p + tcp_len p <= len p.
