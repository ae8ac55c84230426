(** Path MTU discovery as a search: what the host and the peer do, what the
    library does in return, and the rules that connect the two.  Independent of
    the code. *)
From Verif Require Import Base Codes Ctx WireSpec MsgSpec ConnState Conn ConnSpec CallSpec.

(** What happens, in the order of the log. *)
Inductive item : Type :=
| Start (online : bool)           (* he_conn_start_pmtu_discovery is called *)
| Fire (online : bool)            (* he_conn_pmtud_probe_timeout is called *)
| Pong (online : bool) (id : Z)   (* a PONG arrives that does not answer the last keepalive *)
| Probe (id size : Z)             (* a probe is given to wolfSSL *)
| Sent (ok : bool)                (* and wolfSSL answers *)
| Timer (ms : Z)                  (* pmtud_time_cb *)
| Phase (s : Z)                   (* pmtud_state_change_cb *).

Definition item_of (s : Z) (e : ev) (past : trace) : list item :=
  match e with
  | ECall OStartPmtud => [Start (s =? HE_STATE_ONLINE)]
  | ECall OPmtudTimeout => [Fire (s =? HE_STATE_ONLINE)]
  | EWEnd WRecv r _ m =>
    if (0 <? r) && (msg_type m =? HE_MSGID_PONG) && (5 <=? len m) && negb (field16 m 1 =? awaited past)
    then [Pong (s =? HE_STATE_ONLINE) (field16 m 1)] else []
  | EWOp (WSend m) => if (msg_type m =? HE_MSGID_PING) && (5 <? len m) then [Probe (field16 m 1) (len m - 3)] else []
  | EWEnd (WSend m) r err _ => if (msg_type m =? HE_MSGID_PING) && (5 <? len m) then [Sent (write_code r err =? HE_SUCCESS)] else []
  | EPmTime ms => [Timer ms]
  | EPmState s => [Phase s]
  | _ => []
  end.
Fixpoint items (t : trace) : list item :=
  match t with
  | [] => []
  | (s, e) :: past => items past ++ item_of s e past
  end.

(** The state of a search: its phase; the size first confirmed (1250, or 512
    after a black hole); the size last probed; how many probes of that size were
    sent; whether steps are of 32 or of 8 bytes; the id of the probe whose answer
    is awaited (0: none); the result of the last search that was completed. *)
Record search : Type := Search {
  phase : Z; base : Z; size : Z; tries : Z; big : bool; awaits : Z; result : Z }.
Definition new_search : search := Search HE_PMTUD_STATE_DISABLED 0 0 0 false 0 0.
Definition with_phase (s : Z) (q : search) : search :=
  Search s (base q) (size q) (tries q) (big q) (awaits q) (result q).
Definition with_base (b : Z) (q : search) : search :=
  Search (phase q) b (size q) (tries q) (big q) (awaits q) (result q).
Definition with_big (b : bool) (q : search) : search :=
  Search (phase q) (base q) (size q) (tries q) b (awaits q) (result q).
Definition fresh (q : search) : search :=   (* the count starts again *)
  Search (phase q) (base q) (size q) 0 (big q) (awaits q) (result q).
Definition unawaited (q : search) : search :=
  Search (phase q) (base q) (size q) 0 (big q) 0 (result q).
Definition found (n : Z) (q : search) : search :=
  Search (phase q) (base q) n (tries q) (big q) (awaits q) n.

(** A probe of size [n]: nothing if the connection is not ONLINE or the size is
    not between 512 and 1416.  The timer is set to 5 s, to 10 ms if the probe
    could not be sent (then its answer is not awaited). *)
Inductive probes (n : Z) (q : search) : bool -> list item -> search -> Prop :=
| probes_none (online : bool) : online = false \/ n < 512 \/ 1416 < n -> probes n q online [] q
| probes_sent id ok : 512 <= n <= 1416 ->
    probes n q true [Probe id n; Sent ok; Timer (if ok then 5000 else 10)]
      (Search (phase q) (base q) n (tries q + 1) (big q) (if ok then id else awaits q) (result q)).

(** Some output, then a probe. *)
Definition and_probes (n : Z) (q : search) (online : bool) (first out : list item) (q' : search) : Prop :=
  exists rest, out = first ++ rest /\ probes n q online rest q'.

(** [turn q i out q']: in state [q], [i] makes the library do [out]. *)
Definition turn (q : search) (i : item) (out : list item) (q' : search) : Prop :=
  match i with
  | Start online =>
    (* a search starts once in the life of a connection *)
    if (phase q =? HE_PMTUD_STATE_DISABLED) && online
    then and_probes 1250 (fresh (with_base 1250 (with_phase HE_PMTUD_STATE_BASE q))) online [Phase HE_PMTUD_STATE_BASE] out q'
    else out = [] /\ q' = q
  | Fire online =>
    if tries q <? 3 then probes (size q) q online out q'
    else
      let q := unawaited q in
      if phase q =? HE_PMTUD_STATE_BASE then
        if size q =? 1250 then probes 512 q online out q'
        else out = [Phase HE_PMTUD_STATE_ERROR; Timer 60000] /\ q' = with_phase HE_PMTUD_STATE_ERROR q
      else if phase q =? HE_PMTUD_STATE_SEARCHING then
        if big q then probes (size q - 24) (with_big false q) online out q'
        else (* otherwise an assertion fails *) base q < size q /\
             out = [Phase HE_PMTUD_STATE_SEARCH_COMPLETE; Timer 600000] /\
             q' = with_phase HE_PMTUD_STATE_SEARCH_COMPLETE (found (size q - 8) q)
      else if phase q =? HE_PMTUD_STATE_SEARCH_COMPLETE then
        and_probes 512 (with_base 512 (with_phase HE_PMTUD_STATE_BASE q)) online [Phase HE_PMTUD_STATE_BASE] out q'
      else if phase q =? HE_PMTUD_STATE_ERROR then out = [Timer 60000] /\ q' = q
      else out = [] /\ q' = q
  | Pong online id =>
    if id =? awaits q then
      let q := unawaited q in
      if (phase q =? HE_PMTUD_STATE_BASE) || (phase q =? HE_PMTUD_STATE_ERROR) then
        and_probes (base q + 32) (with_big true (with_phase HE_PMTUD_STATE_SEARCHING q)) online
          [Timer 0; Phase HE_PMTUD_STATE_SEARCHING] out q'
      else if phase q =? HE_PMTUD_STATE_SEARCHING then
        if 1416 <=? size q
        then out = [Timer 0; Phase HE_PMTUD_STATE_SEARCH_COMPLETE; Timer 600000] /\
             q' = with_phase HE_PMTUD_STATE_SEARCH_COMPLETE (Search (phase q) (base q) (size q) (tries q) (big q) (awaits q) 1416)
        else and_probes (Z.min (size q + if big q then 32 else 8) 1416) q online [Timer 0] out q'
      else if phase q =? HE_PMTUD_STATE_SEARCH_COMPLETE then out = [Timer 0; Timer 600000] /\ q' = q
      else (out = [] \/ out = [Timer 0]) /\ q' = q
    else out = [] /\ q' = q
  | _ => False
  end.

(** [l] is a sequence of such turns that ends in state [q]. *)
Inductive follows : list item -> search -> Prop :=
| follows_new : follows [] new_search
| follows_turn l q i out q' : follows l q -> turn q i out q' -> follows (l ++ i :: out) q'.

(** ** What can be read off such a sequence *)
(** The phases reported, and the order they come in. *)
Definition phases (l : list item) : list Z := flat_map (fun i => match i with Phase s => [s] | _ => [] end) l.
Definition edge (a b : Z) : bool :=
  (a =? HE_PMTUD_STATE_DISABLED) && (b =? HE_PMTUD_STATE_BASE) ||
  (a =? HE_PMTUD_STATE_BASE) && ((b =? HE_PMTUD_STATE_SEARCHING) || (b =? HE_PMTUD_STATE_ERROR)) ||
  (a =? HE_PMTUD_STATE_ERROR) && (b =? HE_PMTUD_STATE_SEARCHING) ||
  (a =? HE_PMTUD_STATE_SEARCHING) && (b =? HE_PMTUD_STATE_SEARCH_COMPLETE) ||
  (a =? HE_PMTUD_STATE_SEARCH_COMPLETE) && (b =? HE_PMTUD_STATE_BASE).
Fixpoint path (a : Z) (l : list Z) : Prop :=
  match l with [] => True | b :: l => edge a b = true /\ path b l end.
Definition current (l : list item) : Z := last (phases l) HE_PMTUD_STATE_DISABLED.

(** Nothing happened while the connection was not ONLINE, and no PONG with id 0
    came (id 0 is taken for an answer when none is awaited). *)
Definition steady (i : item) : Prop :=
  match i with Start on | Fire on => on = true | Pong on id => on = true /\ id <> 0 | _ => True end.

(** Probes of one size that follow each other without anything being learned in
    between: neither an answer (which resets the timer to 0), nor a change of
    phase, nor giving up for a while (a timer of 1 or 10 minutes). *)
Definition in_a_row (a : Z * Z) (i : item) : Z * Z :=
  match i with
  | Probe _ n => if n =? fst a then (n, snd a + 1) else (n, 1)
  | Phase _ => (0, 0)
  | Timer ms => if (ms =? 10) || (ms =? 5000) then a else (0, 0)
  | _ => a
  end.
Fixpoint patient (a : Z * Z) (l : list item) : Prop :=
  match l with [] => True | i :: l => snd (in_a_row a i) <= 3 /\ patient (in_a_row a i) l end.

(** How often the timer has fired since the phase last changed. *)
Definition fired (l : list item) : Z :=
  fold_left (fun n i => match i with Phase _ => 0 | Fire _ => n + 1 | _ => n end) l 0.
