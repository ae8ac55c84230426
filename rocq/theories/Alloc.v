(** memory.c: the allocators of the library, and the two direct uses of libc's in
    plugin_stats.c. *)
From Verif Require Import Base Codes.

(** Whose function: libc's, or one of the host's allocators. *)
Inductive who : Type := Libc | Host (k : Z).
Scheme Equality for who.

(** A call of an allocation function with its arguments. *)
Inductive request : Type :=
| RMalloc (size : Z)
| RCalloc (n size : Z)
| RRealloc (p size : Z)
| RFree (p : Z).

(** memory.c:22-25: the four static function pointers, and the three that
    wolfSSL_SetAllocators (memory.c:29) keeps.  [None] is a null pointer. *)
Record pointers := Ptrs { f_malloc : option Z; f_calloc : option Z; f_realloc : option Z; f_free : option Z }.
Record tls_pointers := Tls { t_malloc : option Z; t_free : option Z; t_realloc : option Z }.

(** The live blocks with the allocator each came from, the number of addresses used,
    and the calls made, newest first.  Addresses are handed out in order: no two
    allocators ever give out the same one. *)
Record mem := Mem {
  m_ptrs : pointers; m_tls : tls_pointers;
  m_next : Z; m_live : list (Z * who); m_calls : list (who * request) }.
Definition mem_new : mem := Mem (Ptrs None None None None) (Tls None None None) 1 [] [].

(** Freeing a block with another allocator's function, and freeing what is not a live
    block, are undefined. *)
Inductive wrong : Type := Mismatch | NotLive.
Inductive mout : Type := MDone (ret : Z) (m : mem) | MWrong (u : wrong).

Definition owner (m : mem) (p : Z) : option who :=
  match find (fun x => fst x =? p) (m_live m) with Some (_, w) => Some w | None => None end.
Definition forget (p : Z) (l : list (Z * who)) : list (Z * who) := filter (fun x => negb (fst x =? p)) l.

(** What a function conforming to malloc(3) does when [w]'s is called with [r]; [ok]
    says whether memory is available. *)
Definition perform (ok : bool) (w : who) (r : request) (m : mem) : mout :=
  let calls := (w, r) :: m_calls m in
  let fresh l := if ok then MDone (m_next m) (Mem (m_ptrs m) (m_tls m) (m_next m + 1) ((m_next m, w) :: l) calls)
                 else MDone 0 (Mem (m_ptrs m) (m_tls m) (m_next m) (m_live m) calls) in
  match r with
  | RMalloc _ | RCalloc _ _ => fresh (m_live m)
  | RRealloc p _ =>
    if p =? 0 then fresh (m_live m)
    else match owner m p with
         | None => MWrong NotLive
         | Some v => if who_beq v w then fresh (forget p (m_live m)) else MWrong Mismatch
         end
  | RFree p =>
    if p =? 0 then MDone 0 (Mem (m_ptrs m) (m_tls m) (m_next m) (m_live m) calls)
    else match owner m p with
         | None => MWrong NotLive
         | Some v => if who_beq v w then MDone 0 (Mem (m_ptrs m) (m_tls m) (m_next m) (forget p (m_live m)) calls)
                     else MWrong Mismatch
         end
  end.

(** memory.c:27-44 he_set_allocators.  [res] is the answer of wolfSSL_SetAllocators,
    which keeps the functions if and only if it answers 0. *)
Definition set_allocators (res : Z) (a b c d : option Z) (m : mem) : mout :=
  if res =? 0 then MDone HE_SUCCESS (Mem (Ptrs a b c d) (Tls a d c) (m_next m) (m_live m) (m_calls m))
  else MDone HE_ERR_INIT_FAILED m.

Definition pick (f : option Z) : who := match f with Some k => Host k | None => Libc end.
(** memory.c:46-52 *)
Definition do_malloc (ok : bool) (size : Z) (m : mem) : mout := perform ok (pick (f_malloc (m_ptrs m))) (RMalloc size) m.
(** memory.c:53-59 *)
Definition do_calloc (ok : bool) (n size : Z) (m : mem) : mout := perform ok (pick (f_calloc (m_ptrs m))) (RCalloc n size) m.
(** memory.c:61-67 *)
Definition do_realloc (ok : bool) (p size : Z) (m : mem) : mout := perform ok (pick (f_realloc (m_ptrs m))) (RRealloc p size) m.
(** memory.c:69-75 *)
Definition do_free (p : Z) (m : mem) : mout := perform true (pick (f_free (m_ptrs m))) (RFree p) m.
(** plugin_stats.c:92 and 106: calloc and free of libc. *)
Definition stats_alloc (ok : bool) (size : Z) (m : mem) : mout := perform ok Libc (RCalloc 1 size) m.
Definition stats_free (p : Z) (m : mem) : mout := if p =? 0 then MDone 0 m else perform true Libc (RFree p) m.

(** What a program does. *)
Inductive mem_op : Type :=
| MSet (res : Z) (a b c d : option Z)
| MMalloc (ok : bool) (size : Z)
| MCalloc (ok : bool) (n size : Z)
| MRealloc (ok : bool) (p size : Z)
| MFree (p : Z)
| MStats (ok : bool) (size : Z)
| MStatsFree (p : Z).
Definition mem_step (o : mem_op) (m : mem) : mout :=
  match o with
  | MSet res a b c d => set_allocators res a b c d m
  | MMalloc ok n => do_malloc ok n m
  | MCalloc ok n s => do_calloc ok n s m
  | MRealloc ok p n => do_realloc ok p n m
  | MFree p => do_free p m
  | MStats ok n => stats_alloc ok n m
  | MStatsFree p => stats_free p m
  end.
Fixpoint mem_run (ops : list mem_op) (m : mem) : mout :=
  match ops with
  | [] => MDone 0 m
  | o :: rest => match mem_step o m with MDone _ m' => mem_run rest m' | MWrong u => MWrong u end
  end.
