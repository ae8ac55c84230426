(** Vocabulary for C47: threads, calls and the datagrams they bring. *)
From Verif Require Import Base Codes Local.

Definition thread_of (a : action) : Z := match a with Accept t _ _ | Return t _ | Read t _ _ | Fail t _ _ => t end.
Definition conn_of (a : action) : Z := match a with Accept _ c _ | Return _ c | Read _ c _ | Fail _ c _ => c end.

(** A call of the library by a thread: on connection [k_conn], with the datagram
    that passed the header checks if it is he_conn_outside_data_received; wolfSSL
    then reads ([Some sz]) or reports errors ([None] with a code) any number of
    times. *)
Inductive does : Type := DoRead (sz : Z) | DoFail (err : Z).
Record a_call : Type := ACall { k_conn : Z; k_given : option bytes; k_does : list does }.
Definition acts_of (t : Z) (k : a_call) : list action :=
  (match k_given k with Some d => [Accept t (k_conn k) d] | None => [] end) ++
  map (fun x => match x with DoRead sz => Read t (k_conn k) sz | DoFail err => Fail t (k_conn k) err end) (k_does k) ++
  (match k_given k with Some d => [Return t (k_conn k)] | None => [] end).
(** Every thread makes calls one after the other; [h] is what has happened so far,
    in any interleaving. *)
Definition interleaved (calls : Z -> list a_call) (h : list action) : Prop :=
  forall t, exists rest, filter (fun a => thread_of a =? t) h ++ rest = flat_map (acts_of t) (calls t).
(** wolfSSL reads at least once during the call (with a size that makes sense). *)
Definition prompt (k : a_call) : Prop := k_given k = None \/ exists sz, In (DoRead sz) (k_does k) /\ 0 <= sz.

(** The datagram of the call thread [t] is in, if any ([h]: newest first). *)
Fixpoint current (t : Z) (h : list action) : option (Z * bytes) :=
  match h with
  | [] => None
  | Accept t' c d :: h => if t' =? t then Some (c, d) else current t h
  | Return t' c :: h => if t' =? t then None else current t h
  | _ :: h => current t h
  end.
(** Some datagram was passed for connection [c]. *)
Definition passed (c : Z) (d : bytes) (h : list action) : Prop := exists t, In (Accept t c d) h.
(** The last error reported by a thread, or for a connection ([h]: newest first). *)
Fixpoint last_error (f : action -> bool) (h : list action) : Z :=
  match h with
  | [] => 0
  | Fail t c err :: h => if f (Fail t c err) then err else last_error f h
  | _ :: h => last_error f h
  end.
