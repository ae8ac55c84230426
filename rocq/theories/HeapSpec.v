(** What C39 and C40 speak of: the life of a client, as calls and their results. *)
From Verif Require Import Base Codes Frag Heap.

(** Nothing is allocated. *)
Definition nothing_left (h : heap) : Prop := forall a, h_at h a = None.
(** A call of which the arguments are what the library can meet: offsets and
    numbers of entries are unsigned (and he_ssl_ctx_set_max_frag_entries bounds
    the latter), plugins are not NULL. *)
Definition op_ok (o : mop) : Prop :=
  match o with
  | MConnect _ _ _ _ frags => 0 <= frags <= 65536
  | MFrag _ _ _ _ _ off _ _ => 0 <= off
  | MPlugin _ _ plugin => plugin <> 0
  end.
(** A fragment arrives while memory for a range of received bytes cannot be had. *)
Definition starved (o : mop) : Prop := match o with MFrag _ false _ _ _ _ _ _ => True | _ => False end.
Definition connections (l : list mop) : list Z :=
  flat_map (fun o => match o with MConnect _ _ _ _ frags => [frags] | _ => [] end) l.
(** 0 means the default *)
Definition table_size (frags : Z) : Z := if frags =? 0 then 65536 else frags.

(** What is waiting at each of [num] places of reassembly: since when, and the
    ranges [begin, end) of the fragments that came. *)
Definition waiting : Type := Z -> option (Z * list (Z * Z)).
Definition live (w : waiting) (place now : Z) : list (Z * Z) :=
  match w place with
  | Some (since, l) => if 64 <? now - since then [] else l
  | None => []
  end.
Definition since (w : waiting) (place now1 now2 : Z) : Z :=
  match w place with
  | Some (since, _) => if 64 <? now2 - since then now2 else since
  | None => if 64 <? now2 - now1 then now2 else now1
  end.
Definition arrive (num : Z) (w : waiting) (o : mop) (r : Z * option bytes) : waiting :=
  match o with
  | MFrag _ _ now1 now2 id off _ data =>
    if (fst r =? HE_ERR_POINTER_WOULD_OVERFLOW) || (fst r =? HE_ERR_NO_MEMORY) then w else
    fun place =>
      if place =? id mod num then
        match snd r with
        | Some _ => None
        | None => Some (since w place now1 now2, (off, off + len data) :: live w place now2)
        end
      else w place
  | _ => w
  end.
(** The fragment starts where an earlier one of its place ended, and an earlier
    one begins beyond its end. *)
Definition strays (num : Z) (w : waiting) (o : mop) : Prop :=
  match o with
  | MFrag _ _ _ now id off _ data =>
    exists x y, In x (live w (id mod num) now) /\ In y (live w (id mod num) now) /\
                snd x = off /\ off + len data < fst y
  | _ => False
  end.
Fixpoint orderly (num : Z) (w : waiting) (l : list (mop * (Z * option bytes))) : Prop :=
  match l with
  | [] => True
  | (o, r) :: l => ~ strays num w o /\ orderly num (arrive num w o r) l
  end.

(** The plugins of one side whose registration succeeded, in order. *)
Definition registered (inside : bool) (l : list (mop * (Z * option bytes))) : list Z :=
  flat_map (fun p => match p with
                     | (MPlugin i _ plugin, (rc, _)) => if Bool.eqb i inside && (rc =? HE_SUCCESS) then [plugin] else []
                     | _ => [] end) l.

(** The same call in the model of Frag.v, where the lists have no addresses: its
    result, and the table after it. *)
Definition same_step (T : option table) (o : mop) (r : Z * option bytes) (T' : option table) : Prop :=
  match o with
  | MPlugin _ alloc _ => T' = T /\ (r = (HE_SUCCESS, None) \/ r = (HE_ERR_INIT_FAILED, None) /\ alloc = false)
  | MConnect new alloc1 alloc2 ssl frags =>
    if new then T' = table_create alloc1 alloc2 frags /\
      r = (if alloc1 && alloc2 then if ssl then HE_SUCCESS else HE_ERR_INIT_FAILED else HE_ERR_NO_MEMORY, None)
    else T' = T /\ r = (HE_ERR_INIT_FAILED, None)
  | MFrag alloc1 alloc2 now1 now2 id off mf data =>
    if 1500 <? off + len data then T' = T /\ r = (HE_ERR_POINTER_WOULD_OVERFLOW, None) else
    match T with
    | None => T' = None /\ r = (HE_ERR_NO_MEMORY, None)
    | Some T => exists T1, frag_store alloc1 alloc2 now1 now2 T id off mf data = Val (fst r, snd r, T1) /\
                           T' = Some (match snd r with Some _ => table_delete T1 id | None => T1 end)
    end
  end.
Fixpoint same_run (T : option table) (l : list (mop * (Z * option bytes))) : Prop :=
  match l with
  | [] => True
  | (o, r) :: l => exists T', same_step T o r T' /\ same_run T' l
  end.
