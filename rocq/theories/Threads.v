(** The parts of the library that share atomic variables in the build with
    HE_ENABLE_MULTITHREADED (he_internal.h:55-59, 248-290), as threads that
    interleave.  Default C11 atomics are sequentially consistent, so a step is one
    access to one atomic variable, or one callback.  Everything else a call does
    (wolfSSL, non-atomic fields, thread-local variables) is left out: it does not
    touch these variables. *)
From Verif Require Import Base Codes.

(** he_internal.h:248-288: state, session_id, pending_session_id,
    first_message_received, is_nudge_timer_running, frag_next_id. *)
Record shared := Sh { sh_state : Z; sh_session : Z; sh_pending : Z; sh_first : bool; sh_nudge : bool; sh_frag : Z }.
Definition sh_set_state v s := Sh v (sh_session s) (sh_pending s) (sh_first s) (sh_nudge s) (sh_frag s).
Definition sh_set_session v s := Sh (sh_state s) v (sh_pending s) (sh_first s) (sh_nudge s) (sh_frag s).
Definition sh_set_pending v s := Sh (sh_state s) (sh_session s) v (sh_first s) (sh_nudge s) (sh_frag s).
Definition sh_set_first v s := Sh (sh_state s) (sh_session s) (sh_pending s) v (sh_nudge s) (sh_frag s).
Definition sh_set_nudge v s := Sh (sh_state s) (sh_session s) (sh_pending s) (sh_first s) v (sh_frag s).
Definition sh_set_frag v s := Sh (sh_state s) (sh_session s) (sh_pending s) (sh_first s) (sh_nudge s) v.

(** What the host sees: events, fragments (of which packet, with which id, the
    how manieth), timers asked for, state changes, a rotation that he_conn_rotate
    reported as successful, the session in the header of a packet. *)
Inductive out :=
| OutEvent (v : Z) | OutFragment (packet id : Z) (i : nat) | OutTimer | OutState (s : Z) | OutRotated (v : Z) | OutHeader (v : Z).

(** What threads are asked to do: pass a received packet with header session
    [h] to the library, send a packet in [n] fragments, update the timeout, nudge,
    change the state, rotate the session to the random number [v], write a header. *)
Inductive job :=
| JReceive (h : Z) | JSend (packet : Z) (n : nat) | JTimeout | JNudge | JState (s : Z) | JRotate (v : Z) | JHeader.

(** Where a thread is. *)
Inductive place :=
| Idle
| Store_first (h : Z)              (* plain build: flow.c:421, about to store *)
| First_event (h : Z)              (* flow.c:423 *)
| Cmp_session (h : Z)              (* flow.c:282 *)
| Cmp_pending (h : Z)              (* flow.c:284 *)
| Set_session (h : Z)              (* flow.c:285 *)
| Set_pending                      (* flow.c:286 *)
| Ack_event                        (* flow.c:287 *)
| Inc_frag (packet id : Z) (n : nat)           (* plain build: frag.c:45, about to store *)
| Fragment (packet id : Z) (i n : nat)         (* frag.c:48-82, [n] fragments left *)
| Timer                            (* conn.c:790 *)
| Timer_set                        (* conn.c:791 *)
| State_set (s : Z)                (* conn.c:428 *)
| State_tell                       (* conn.c:432 *)
| Rotate_set (v : Z)               (* conn.c:900 *)
| Rotate_done (v : Z)
| Header_pending                   (* wolf.c:95 *)
| Header_session.                  (* wolf.c:97 *)
Definition thread : Type := place * list job.

Section Build.
(** [true]: HE_ENABLE_MULTITHREADED is defined. *)
Variable multithreaded : bool.

(** One step of a thread.  A server's connection. *)
Definition tstep (s : shared) (t : thread) : option (shared * list out * thread) :=
  let '(p, l) := t in
  match p with
  | Idle =>
    match l with
    | [] => None
    | JReceive h :: l =>
      (* flow.c:416-422: compare-and-exchange, or a test and then a store *)
      Some (if sh_first s then (s, [], (Cmp_session h, l))
            else if multithreaded then (sh_set_first true s, [], (First_event h, l))
            else (s, [], (Store_first h, l)))
    | JSend q n :: l =>
      (* frag.c:45: atomic increment, or a load and then a store *)
      Some (if multithreaded then (sh_set_frag (u16 (sh_frag s + 1)) s, [], (Fragment q (sh_frag s) 0 n, l))
            else (s, [], (Inc_frag q (sh_frag s) n, l)))
    | JTimeout :: l => Some (s, [], (if sh_nudge s then Idle else Timer, l))       (* conn.c:789 *)
    | JNudge :: l => Some (sh_set_nudge false s, [], (Idle, l))                     (* conn.c:814 *)
    | JState v :: l => Some (s, [], (if sh_state s =? v then Idle else State_set v, l))   (* conn.c:424 *)
    | JRotate v :: l => Some (s, [], (if sh_pending s =? 0 then Rotate_set v else Idle, l)) (* conn.c:888 *)
    | JHeader :: l => Some (s, [], (if sh_pending s =? 0 then Header_session else Header_pending, l)) (* wolf.c:94 *)
    end
  | Store_first h => Some (sh_set_first true s, [], (First_event h, l))
  | First_event h => Some (s, [OutEvent HE_EVENT_FIRST_MESSAGE_RECEIVED], (Cmp_session h, l))
  | Cmp_session h => Some (s, [], (if (h =? 0) || (h =? sh_session s) then Idle else Cmp_pending h, l))
  | Cmp_pending h => Some (s, [], (if h =? sh_pending s then Set_session h else Idle, l))
  | Set_session h => Some (sh_set_session h s, [], (Set_pending, l))
  | Set_pending => Some (sh_set_pending 0 s, [], (Ack_event, l))
  | Ack_event => Some (s, [OutEvent HE_EVENT_PENDING_SESSION_ACKNOWLEDGED], (Idle, l))
  | Inc_frag q id n => Some (sh_set_frag (u16 (id + 1)) s, [], (Fragment q id 0 n, l))
  | Fragment q id i O => Some (s, [], (Idle, l))
  | Fragment q id i (S n) => Some (s, [OutFragment q id i], (Fragment q id (S i) n, l))
  | Timer => Some (s, [OutTimer], (Timer_set, l))
  | Timer_set => Some (sh_set_nudge true s, [], (Idle, l))
  | State_set v => Some (sh_set_state v s, [], (State_tell, l))
  | State_tell => Some (s, [OutState (sh_state s)], (Idle, l))
  | Rotate_set v => Some (sh_set_pending v s, [], (Rotate_done v, l))
  | Rotate_done v => Some (s, [OutRotated v], (Idle, l))
  | Header_pending => Some (s, [OutHeader (sh_pending s)], (Idle, l))
  | Header_session => Some (s, [OutHeader (sh_session s)], (Idle, l))
  end.

(** All threads: any thread that can take a step may take it. *)
Definition sys : Type := shared * list thread * list out.
Inductive sstep : sys -> sys -> Prop :=
| sstep_thread s pre t post log s' o t' : tstep s t = Some (s', o, t') ->
    sstep (s, pre ++ t :: post, log) (s', pre ++ t' :: post, log ++ o).
Inductive steps : sys -> sys -> Prop :=
| steps_none x : steps x x
| steps_more x y z : steps x y -> sstep y z -> steps x z.
Definition threads_of (jobs : list (list job)) : list thread := map (pair Idle) jobs.
(** Every thread has done its work. *)
Definition finished (x : sys) : Prop := Forall (fun t => t = (Idle, [])) (snd (fst x)).

(** A schedule: which thread goes next. *)
Fixpoint replace {A} (i : nat) (a : A) (l : list A) : list A :=
  match i, l with O, _ :: l => a :: l | S i, x :: l => x :: replace i a l | _, [] => [] end.
Fixpoint schedule (is : list nat) (x : sys) : sys :=
  match is with
  | [] => x
  | i :: is => schedule is (let '(s, ts, log) := x in
      match nth_error ts i with
      | Some t => match tstep s t with Some (s', o, t') => (s', replace i t' ts, log ++ o) | None => x end
      | None => x
      end)
  end.
End Build.
