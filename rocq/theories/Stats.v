(** plugin_stats.c: the example plugin that counts packets.  A C double is the
    IEEE-754 binary64 number of the standard library's SpecFloat, rounded to nearest.
    What fprintf makes of the numbers is not modelled: a line is the numbers. *)
From Coq Require Export SpecFloat.
From Verif Require Import Base Codes.

(** Conversion of an unsigned integer to double (C11 6.3.1.4). *)
Definition double (n : Z) : spec_float := binary_normalize 53 1024 n 0 false.
Definition dadd := SFadd 53 1024.
Definition dsub := SFsub 53 1024.
Definition dmul := SFmul 53 1024.
Definition ddiv := SFdiv 53 1024.
Definition dsqrt := SFsqrt 53 1024.

(** plugin_stats.h:43-49 stats_t, :51-54 packet_stats_t; calloc makes them zero. *)
Record stats := Stats { st_sum : spec_float; st_sumsq : spec_float; st_n : Z; st_min : spec_float; st_max : spec_float }.
Record packet_stats := PStats { ps_in : stats; ps_out : stats }.
Definition stats0 : stats := Stats (S754_zero false) (S754_zero false) 0 (S754_zero false) (S754_zero false).
Definition packet_stats0 : packet_stats := PStats stats0 stats0.

(** plugin_stats.h:41 PACKET_SAMPLE_N *)
Definition PACKET_SAMPLE_N : Z := 100000.

(** plugin_stats.c:26-28 stats_mean *)
Definition stats_mean (st : stats) : spec_float := ddiv (st_sum st) (double (st_n st)).
(** plugin_stats.c:30-32 stats_stddev ([n - 1] is computed in unsigned long) *)
Definition stats_stddev (st : stats) : spec_float :=
  dsqrt (ddiv (dsub (st_sumsq st) (ddiv (dmul (st_sum st) (st_sum st)) (double (st_n st))))
              (double ((st_n st - 1) mod 2 ^ 64))).

(** plugin_stats.c:34-47 stats_sample; n is an unsigned long of 64 bits *)
Definition stats_sample (st : stats) (s : spec_float) : stats :=
  let sum := dadd (st_sum st) s in
  let sumsq := dadd (st_sumsq st) (dmul s s) in
  let n := (st_n st + 1) mod 2 ^ 64 in
  if st_n st =? 0 then Stats sum sumsq n s s
  else
    let mn := if SFltb s (st_min st) then s else st_min st in
    let mx := if SFltb (st_max st) s then s else st_max st in
    Stats sum sumsq n mn mx.

(** plugin_stats.c:49-54 stats_dump: the numbers printed *)
Record line := Line { l_sum : spec_float; l_sumsq : spec_float; l_n : Z; l_min : spec_float; l_max : spec_float;
                      l_mean : spec_float; l_stddev : spec_float }.
Definition stats_dump (st : stats) : line :=
  Line (st_sum st) (st_sumsq st) (st_n st) (st_min st) (st_max st) (stats_mean st) (stats_stddev st).

(** What one call of the plugin does: the code it returns, the packet it leaves, the
    lines it prints ("Ingress" or "Egress") and its data. *)
Record result := Result { r_code : Z; r_packet : bytes; r_lines : list (bool * line); r_data : option packet_stats }.

(** plugin_stats.c:56-71 stats_plugin_do_ingress *)
Definition stats_do_ingress (packet : bytes) (data : option packet_stats) : result :=
  match data with
  | None => Result HE_PLUGIN_FAIL packet [] None
  | Some ps =>
    let st := stats_sample (ps_in ps) (double (len packet)) in
    Result HE_PLUGIN_SUCCESS packet (if st_n st mod PACKET_SAMPLE_N =? 0 then [(true, stats_dump st)] else [])
           (Some (PStats st (ps_out ps)))
  end.

(** plugin_stats.c:73-88 stats_plugin_do_egress *)
Definition stats_do_egress (packet : bytes) (data : option packet_stats) : result :=
  match data with
  | None => Result HE_PLUGIN_FAIL packet [] None
  | Some ps =>
    let st := stats_sample (ps_out ps) (double (len packet)) in
    Result HE_PLUGIN_SUCCESS packet (if st_n st mod PACKET_SAMPLE_N =? 0 then [(false, stats_dump st)] else [])
           (Some (PStats (ps_in ps) st))
  end.

(** plugin_stats.c:90-101 stats_plugin_create; [alloc]: calloc succeeds *)
Definition stats_create (alloc : bool) : Z * option packet_stats :=
  if alloc then (HE_PLUGIN_SUCCESS, Some packet_stats0) else (HE_PLUGIN_FAIL, None).

(** The chain calls the plugin with packets, inbound ([true]) or outbound, oldest
    first: the lines printed and the plugin's data afterwards. *)
Definition stats_call (x : bool * bytes) (data : option packet_stats) : result :=
  if fst x then stats_do_ingress (snd x) data else stats_do_egress (snd x) data.
Fixpoint stats_run (h : list (bool * bytes)) (data : option packet_stats) : option packet_stats :=
  match h with [] => data | x :: h => stats_run h (r_data (stats_call x data)) end.
