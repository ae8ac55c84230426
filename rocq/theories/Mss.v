(** Model of src/he/network.c and src/he/mss.c. *)
From Verif Require Import Base Codes.

(** network.h:28-33, 46-66 *)
Definition HE_IP_DONT_FRAGMENT : Z := 16384.
Definition HE_IP_MORE_FRAGMENTS : Z := 8192.
Definition HE_IP_NO_FRAG_OFFSET : Z := 0.
Definition HE_IP_TCP : Z := 6.
Definition HE_TCP_SYN : Z := 2.
Definition HE_TCP_OPT_END : Z := 0.
Definition HE_TCP_OPT_NOP : Z := 1.
Definition HE_TCP_OPT_MSS : Z := 2.
Definition HE_TCP_MSS_OPT_SIZE : Z := 4.
Definition sizeof_ipv4_header : Z := 20.
Definition sizeof_tcp_header : Z := 20.
Definition sizeof_tcp_option : Z := 2.
(* offsets inside the packed structs, network.h:34-45, 50-60 *)
Definition ip_off_flags_fo : Z := 6.
Definition ip_off_protocol : Z := 9.
Definition tcp_off_data_offset : Z := 12.
Definition tcp_off_flags : Z := 13.
Definition tcp_off_checksum : Z := 16.

(** network.c:22-47 he_internal_calculate_differential_checksum.
    [newv]/[oldv] are the n host-order 16-bit words behind the two pointers.
    The int32_t accumulator is a [Z]: with n = 1 (the only call) it stays
    within +-131070. *)
Fixpoint diff_acc (acc : Z) (newv oldv : list Z) : Z :=
  match newv, oldv with
  | x :: xs, y :: ys => diff_acc (acc - x + y) xs ys
  | _, _ => acc
  end.
Definition diff_fold (a : Z) : Z :=
  let a := a / 65536 + a mod 65536 in a + a / 65536.
Definition differential_checksum (cksum : Z) (newv oldv : list Z) : Z :=
  let a := diff_acc cksum newv oldv in
  if a <? 0 then u16 (- (diff_fold (- a)) - 1)      (* (uint16_t)~accumulate *)
  else u16 (diff_fold a).

(** network.c:49-62 he_internal_is_ipv4_packet_valid (non-NULL packet). *)
Definition is_ipv4_packet_valid (packet : bytes) : res bool :=
  if len packet <? sizeof_ipv4_header then Val false
  else do b <- ld8 packet 0; Val (b / 16 =? 4).

(** mss.c:86-148, the loop over TCP options.  [off] is the position of
    [options] in the packet, [olen] is options_len, [tcp] the position of the
    TCP header.  Fuel: one unit per iteration. *)
Fixpoint clamp_loop (le : bool) (fuel : nat) (p : bytes) (tcp off olen mss : Z) : res bytes :=
  if olen <? HE_TCP_MSS_OPT_SIZE then Val p else
  match fuel with
  | O => Ub UB_fuel
  | S fuel =>
    do kind <- ld8 p off;
    if kind =? HE_TCP_OPT_END then Val p
    else if kind =? HE_TCP_OPT_NOP then clamp_loop le fuel p tcp (off + 1) (olen - 1) mss
    else
      do size <- ld8 p (off + 1);
      if kind =? HE_TCP_OPT_MSS then
        if negb (size =? HE_TCP_MSS_OPT_SIZE) then Val p
        else
          do current_mss_be <- ldh16 le p (off + sizeof_tcp_option);
          let current_mss := ntohs le current_mss_be in
          if current_mss <=? mss then Val p
          else
            let mss_be := htons le mss in
            do p1 <- sth16 le p (off + sizeof_tcp_option) mss_be;
            do ck <- ldh16 le p1 (tcp + tcp_off_checksum);
            sth16 le p1 (tcp + tcp_off_checksum)
                  (differential_checksum ck [mss_be] [current_mss_be])
      else if (0 <? size) && (size <=? olen)
      then clamp_loop le fuel p tcp (off + size) (olen - size) mss
      else Val p
  end.

(** mss.c:23-151 he_internal_clamp_mss (non-NULL packet; [mss] is a uint16_t). *)
Definition clamp_mss (le : bool) (p : bytes) (mss : Z) : res (Z * bytes) :=
  if len p =? 0 then Val (HE_ERR_ZERO_SIZE, p)
  else if (mss <? MIN_PLPMTU) || (HE_MAX_WIRE_MTU <? mss) then Val (HE_ERR_FAILED, p)
  else
    do ok <- is_ipv4_packet_valid p;
    if negb ok then Val (HE_ERR_BAD_PACKET, p)
    else
      do proto <- ld8 p ip_off_protocol;
      if negb (proto =? HE_IP_TCP) then Val (HE_SUCCESS, p)
      else
        do ff <- ldh16 le p ip_off_flags_fo;
        (* & ~(DF | MF) *)
        let frag := Z.land (ntohs le ff) (65535 - (HE_IP_DONT_FRAGMENT + HE_IP_MORE_FRAGMENTS)) in
        if negb (frag =? HE_IP_NO_FRAG_OFFSET) then Val (HE_SUCCESS, p)
        else
          do vihl <- ld8 p 0;
          let ip_header_len := 4 * (vihl mod 16) in
          if len p <? ip_header_len + sizeof_tcp_header then Val (HE_SUCCESS, p)
          else
            do flags <- ld8 p (ip_header_len + tcp_off_flags);
            if Z.land flags HE_TCP_SYN =? 0 then Val (HE_SUCCESS, p)
            else
              do doff <- ld8 p (ip_header_len + tcp_off_data_offset);
              let tcp_header_len := 4 * (doff / 16) in
              let options_len := tcp_header_len - sizeof_tcp_header in
              if len p <? ip_header_len + tcp_header_len then Val (HE_SUCCESS, p)
              else
                do p' <- clamp_loop le (Z.to_nat options_len) p ip_header_len
                           (ip_header_len + sizeof_tcp_header) options_len mss;
                Val (HE_SUCCESS, p').
