(** The packet being received and the detail of the last TLS error: per thread in
    the build with HE_ENABLE_MULTITHREADED, per connection otherwise.  Several
    connections, several threads.  Everything else a call does is left out: it does
    not touch these variables.  Connections are datagram connections. *)
From Verif Require Import Base Codes.

(** flow.c:338-342 cur_packet, cur_packet_length, packet_seen and conn.c:1239-1243
    wolf_error, or the fields incoming_data, incoming_data_length, packet_seen and
    wolf_error of a connection (he_internal.h).  The pointer is the bytes it points
    to, with the connection it was passed for and whether the call that passed it
    is still going on (afterwards the host may free or reuse the buffer). *)
Record slot := Slot { sl_packet : option (Z * bytes); sl_live : bool; sl_seen : bool; sl_err : Z }.
Definition slot0 : slot := Slot None false false 0.

(** What a thread [t] does inside calls on connection [c]. *)
Inductive action : Type :=
| Accept (t c : Z) (d : bytes)   (* flow.c:373-377: a datagram passed its header checks *)
| Return (t c : Z)               (* the call that passed the datagram returns *)
| Read (t c sz : Z)              (* wolf.c:26-72: wolfSSL asks for up to [sz] bytes *)
| Fail (t c err : Z).            (* conn.c:1245-1252 he_conn_set_ssl_error *)

(** The answer to wolfSSL: a return value and the bytes copied; reading through a
    pointer into a buffer that is gone is undefined. *)
Inductive answer : Type := Value (r : Z) (d : bytes) | Stale.

Section Build.
(** [true]: HE_ENABLE_MULTITHREADED is defined. *)
Variable multithreaded : bool.
(** flow.h:85-116 or flow.h:118-143, conn.c:1239-1260: which variables are used. *)
Definition key (t c : Z) : Z := if multithreaded then t else c.

(** wolf.c:26-72 he_wolf_dtls_read (non-NULL buffer and context).  flow.h:100-102:
    in the multithreaded build a packet that was seen is not available; flow.h:131-133:
    otherwise only the pointer counts, and wolf.c:52-55 looks at the flag. *)
Definition available (s : slot) : bool :=
  match sl_packet s with None => false | Some _ => if multithreaded then negb (sl_seen s) else true end.
Definition read (s : slot) (sz : Z) : slot * answer :=
  if sz <? 0 then (s, Value WOLFSSL_CBIO_ERR_GENERAL [])
  else if negb (available s) then (s, Value WOLFSSL_CBIO_ERR_WANT_READ [])
  else if sl_seen s then (s, Value WOLFSSL_CBIO_ERR_WANT_READ [])
  else
    let seen := Slot (sl_packet s) (sl_live s) true (sl_err s) in
    match sl_packet s with
    | None => (s, Value WOLFSSL_CBIO_ERR_WANT_READ [])
    | Some (_, d) =>
      if sz <? len d then (seen, Value 0 [])
      else if sl_live s then (seen, Value (len d) d) else (seen, Stale)
    end.

Definition act_on (s : slot) (a : action) : slot :=
  match a with
  | Accept _ c d => Slot (Some (c, d)) true false (sl_err s)
  | Return _ c =>
    match sl_packet s with
    | Some (c', _) => if c' =? c then Slot (sl_packet s) false (sl_seen s) (sl_err s) else s
    | None => s
    end
  | Read _ _ sz => fst (read s sz)
  | Fail _ _ err => Slot (sl_packet s) (sl_live s) (sl_seen s) err
  end.
Definition who (a : action) : Z :=
  match a with Accept t c _ | Return t c | Read t c _ | Fail t c _ => key t c end.
(** All variables after the actions [h], in the order in which they happened. *)
Fixpoint after (h : list action) (m : Z -> slot) : Z -> slot :=
  match h with
  | [] => m
  | a :: h => after h (fun k => if k =? who a then act_on (m k) a else m k)
  end.
(** The answer wolfSSL gets when thread [t] reads for connection [c] after [h]. *)
Definition answered (h : list action) (t c sz : Z) : answer := snd (read (after h (fun _ => slot0) (key t c)) sz).
(** conn.c:1254-1260 he_conn_get_ssl_error *)
Definition error_of (h : list action) (t c : Z) : Z := sl_err (after h (fun _ => slot0) (key t c)).
End Build.
