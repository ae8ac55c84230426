(** Vocabulary for C53. *)
From Verif Require Import Base Codes Alloc.

(** [MSet 0 a b c d] is a call of he_set_allocators(a, b, c, d) that wolfSSL accepts. *)
Definition accepted_set (o : mem_op) : bool := match o with MSet res _ _ _ _ => res =? 0 | _ => false end.
(** The malloc, calloc, realloc and free given last; null pointers if none ever were. *)
Definition in_force (ops : list mem_op) (a b c d : option Z) : Prop :=
  (exists before after, ops = before ++ MSet 0 a b c d :: after /\ existsb accepted_set after = false) \/
  (existsb accepted_set ops = false /\ a = None /\ b = None /\ c = None /\ d = None).
(** A null pointer stands for libc's function. *)
Definition function (f : option Z) : who := match f with Some k => Host k | None => Libc end.
(** What a call of he_malloc, he_calloc, he_realloc or he_free has to call. *)
Definition due (a b c d : option Z) (o : mem_op) : option (who * request) :=
  match o with
  | MMalloc _ n => Some (function a, RMalloc n)
  | MCalloc _ n s => Some (function b, RCalloc n s)
  | MRealloc _ p n => Some (function c, RRealloc p n)
  | MFree p => Some (function d, RFree p)
  | _ => None
  end.
Definition live (m : mem) (p : Z) (w : who) : Prop := In (p, w) (m_live m).
(** The statistics plugin. *)
Definition by_plugin (o : mem_op) : bool := match o with MStats _ _ | MStatsFree _ => true | _ => false end.
(** A host that gives all four functions of one allocator or none, and changes them
    only while no block is in use. *)
Definition careful (ops : list mem_op) : Prop :=
  forall before a b c d after, ops = before ++ MSet 0 a b c d :: after ->
    b = a /\ c = a /\ d = a /\ forall r m, mem_run before mem_new = MDone r m -> m_live m = [].
