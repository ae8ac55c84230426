(** Vocabulary for C21: what wolfSSL reads. *)
From Verif Require Import Base Codes Ctx ConnState ConnSpec CallSpec.

(** wolfSSL's reads: the size of its buffer, the result and the bytes stored. *)
Definition reads (s : Z) (e : ev) : list (Z * Z * bytes) :=
  match e with EWIn sz r d => [(sz, r, d)] | _ => [] end.
Definition bytes_read (l : list (Z * Z * bytes)) : bytes := concat (map snd l).

(** What there is to read: a datagram's payload, or bytes of a stream. *)
Inductive source : Type :=
| Datagram (p : option bytes)
| Stream (rest : bytes).

(** How a read of [sz] bytes is answered: the result, the bytes, what is left.  A
    datagram is read whole; if it does not fit it is lost.  [open]: the wolfSSL
    object knows its connection. *)
Definition answer (open : bool) (src : source) (sz : Z) : Z * bytes * source :=
  if (sz <? 0) || negb open then (WOLFSSL_CBIO_ERR_GENERAL, [], src)
  else match src with
  | Datagram None | Stream [] => (WOLFSSL_CBIO_ERR_WANT_READ, [], src)
  | Datagram (Some p) => if sz <? len p then (0, [], Datagram None) else (len p, p, Datagram None)
  | Stream b => let n := Z.min sz (len b) in (n, firstn (Z.to_nat n) b, Stream (skipn (Z.to_nat n) b))
  end.
Fixpoint answers (open : bool) (src : source) (l : list (Z * Z * bytes)) (src' : source) : Prop :=
  match l with
  | [] => src' = src
  | (sz, r, d) :: l => let '(r0, d0, src0) := answer open src sz in r = r0 /\ d = d0 /\ answers open src0 l src'
  end.

(** What a connection holds for wolfSSL to read. *)
Definition holds (c : conn) : source :=
  if c_io c =? HE_CONNECTION_TYPE_STREAM then Stream (match rx_rest (c_rx c) with Some r => r | None => [] end)
  else Datagram (if rx_seen (c_rx c) then None else rx_data (c_rx c)).

(** A datagram that is passed on to TLS: the header's first bytes are "He", its
    version is the connection's, its session is not the reject value. *)
Definition acceptable (c : conn) (d : bytes) : bool :=
  (16 <=? len d) && (nth 0 d 0 =? 72) && (nth 1 d 0 =? 101) && (nth 2 d 0 =? c_vmaj c) && (nth 3 d 0 =? c_vmin c) &&
  negb (forallb (fun b => b =? 255) (slice d 8 8)).
(** What a buffer that came out of the plugins as [out] adds for wolfSSL to read. *)
Definition arrives (c : conn) (out : bytes) : option source :=
  if c_ctype c =? HE_CONNECTION_TYPE_DATAGRAM then if acceptable c out then Some (Datagram (Some (skipn 16 out))) else None
  else match holds c with Stream [] => Some (Stream out) | _ => None end.
