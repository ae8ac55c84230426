(** Vocabulary for reassembly, independent of the data structures of the code. *)
From Verif Require Import Base.

(** A fragment as it arrives: byte offset, more-fragments flag, payload. *)
Record fragment := Fragment { f_off : Z; f_mf : Z; f_data : bytes }.

(** Byte [pos] is carried by fragment [f]. *)
Definition carries (f : fragment) (pos : Z) (b : Z) : Prop :=
  f_off f <= pos < f_off f + len (f_data f) /\
  nth (Z.to_nat (pos - f_off f)) (f_data f) 0 = b.

(** The packet [concat cs] cut in the non-empty pieces [cs]: piece number [i]
    as a fragment. *)
Definition piece (cs : list bytes) (i : nat) : fragment :=
  Fragment (len (concat (firstn i cs)))
           (if (S i <? length cs)%nat then 1 else 0)
           (nth i cs []).

(** [cs] cuts a packet of at most [mtu] bytes into at least two non-empty pieces. *)
Definition cut_of (cs : list bytes) (p : bytes) (mtu : Z) : Prop :=
  concat cs = p /\ Forall (fun c => c <> []) cs /\ (2 <= length cs)%nat /\ len p <= mtu.

(** An arrival order: every piece exactly once. *)
Definition arrival (n : nat) (arr : list nat) : Prop :=
  NoDup arr /\ (forall i, In i arr <-> (i < n)%nat).

(** The pieces received so far are consecutive. *)
Definition consecutive (l : list nat) : Prop :=
  exists a b, forall i, In i l <-> (a <= i < b)%nat.
Definition grows_consecutively (arr : list nat) : Prop :=
  forall k, consecutive (firstn k arr).

(** One arrival at a receiver: the time, the fragment id, the fragment. *)
Record arrived := Arrived { a_now : Z; a_id : Z; a_frag : fragment }.

(** What a receiver has seen, newest first: the arrival, the return code it got
    and the packet it completed, if any. *)
Record outcome := Outcome { o_arr : arrived; o_rc : Z; o_packet : option bytes }.

(** With [n] table entries, two ids share a place when they are equal modulo [n]. *)
Definition same_place (n id id' : Z) : Prop := id mod n = id' mod n.

(** The arrivals at the place of [id] since a packet was last completed there. *)
Fixpoint since (n id : Z) (h : list outcome) : list outcome :=
  match h with
  | [] => []
  | o :: h =>
    if a_id (o_arr o) mod n =? id mod n
    then match o_packet o with Some _ => [] | None => o :: since n id h end
    else since n id h
  end.
