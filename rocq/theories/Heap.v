(** Memory management: the objects the library allocates, as cells of a heap that
    are reached through pointers.  frag.c (entries and table), plugin_chain.c,
    client.c and the creation and destruction of contexts and connections.

    An address is never used twice, so that every use of freed memory is seen.
    [he_malloc] and friends (memory.c:46-74) are the primitives [halloc], [hfree];
    which allocations succeed is an argument. *)
From Verif Require Import Base Codes Frag.

(** What is at an address. *)
Inductive cell : Type :=
| KNode (b e : Z) (last : bool) (next : Z)     (* frag.h:40-45 he_fragment_entry_node_t *)
| KEntry (d : bytes) (time : Z) (frags : Z)    (* frag.h:48-53 he_fragment_entry_t *)
| KSlots (l : list Z)                          (* the array of a table *)
| KTable (num slots : Z)                       (* frag.h:56-59 he_fragment_table_t *)
| KChain (plugin next : Z)                     (* plugin_chain.h he_plugin_chain_t *)
| KConn (table ssl : Z)                        (* he_conn_t: what it owns *)
| KCtx (wolf : Z)                              (* he_ssl_ctx_t: what it owns *)
| KClient (conn ctx inp outp : Z)              (* he_client_t *)
| KObj.                                        (* a WOLFSSL or WOLFSSL_CTX *)

Record heap := Heap { h_next : Z; h_at : Z -> option cell }.
Definition heap_new : heap := Heap 1 (fun _ => None).
Definition put (a : Z) (o : option cell) (h : heap) : heap :=
  Heap (h_next h) (fun b => if b =? a then o else h_at h b).

(** What can go wrong. *)
Inductive fault : Type :=
| FNull      (* NULL is dereferenced *)
| FFreed     (* memory that is not allocated (any more) is read or written *)
| FDouble    (* memory that is not allocated (any more) is freed *)
| FType      (* a pointer to an object of another type *)
| FBounds    (* outside an array *)
| FFuel.     (* not C: a loop of the model ran out of its fuel *)
Inductive hout (A : Type) : Type := HDone (a : A) (h : heap) | HFault (f : fault).
Arguments HDone {A} a h.
Arguments HFault {A} f.
Definition H (A : Type) : Type := heap -> hout A.
Definition hret {A} (a : A) : H A := fun h => HDone a h.
Definition hfault {A} (f : fault) : H A := fun _ => HFault f.
Definition hbind {A B} (m : H A) (k : A -> H B) : H B :=
  fun h => match m h with HDone a h => k a h | HFault f => HFault f end.
Declare Scope heap_scope.
Notation "'let!!' x := m 'in' k" := (hbind m (fun x => k))
  (at level 200, x pattern, m at level 100, k at level 200, right associativity) : heap_scope.
Notation "m ';;!' k" := (hbind m (fun _ => k)) (at level 100, right associativity) : heap_scope.
Local Open Scope heap_scope.

(** memory.c: he_calloc (0 is NULL), he_free (NULL is allowed), and access. *)
Definition halloc (ok : bool) (c : cell) : H Z := fun h =>
  if ok then HDone (h_next h) (Heap (h_next h + 1) (h_at (put (h_next h) (Some c) h))) else HDone 0 h.
Definition hfree (a : Z) : H unit := fun h =>
  if a =? 0 then HDone tt h else match h_at h a with None => HFault FDouble | Some _ => HDone tt (put a None h) end.
Definition hload (a : Z) : H cell := fun h =>
  if a =? 0 then HFault FNull else match h_at h a with None => HFault FFreed | Some c => HDone c h end.
Definition hstore (a : Z) (c : cell) : H unit := fun h =>
  if a =? 0 then HFault FNull else match h_at h a with None => HFault FFreed | Some _ => HDone tt (put a (Some c) h) end.
Definition hlift {A} (r : res A) : H A := match r with Val a => hret a | Ub _ => hfault FBounds end.
Definition load_node (a : Z) : H (Z * Z * bool * Z) :=
  let!! c := hload a in match c with KNode b e l n => hret (b, e, l, n) | _ => hfault FType end.
Definition load_entry (a : Z) : H (bytes * Z * Z) :=
  let!! c := hload a in match c with KEntry d t f => hret (d, t, f) | _ => hfault FType end.
Definition load_slots (a : Z) : H (list Z) :=
  let!! c := hload a in match c with KSlots l => hret l | _ => hfault FType end.
Definition load_table (a : Z) : H (Z * Z) :=
  let!! c := hload a in match c with KTable n s => hret (n, s) | _ => hfault FType end.
Definition load_chain (a : Z) : H (Z * Z) :=
  let!! c := hload a in match c with KChain p n => hret (p, n) | _ => hfault FType end.
Definition load_conn (a : Z) : H (Z * Z) :=
  let!! c := hload a in match c with KConn t s => hret (t, s) | _ => hfault FType end.
Definition load_ctx (a : Z) : H Z :=
  let!! c := hload a in match c with KCtx w => hret w | _ => hfault FType end.
Definition load_client (a : Z) : H (Z * Z * Z * Z) :=
  let!! c := hload a in match c with KClient x y i o => hret (x, y, i, o) | _ => hfault FType end.
(** Loops over pointers: as many rounds as there are addresses. *)
Definition hloop {A} (m : nat -> H A) : H A := fun h => m (Z.to_nat (h_next h)) h.

(** ** frag.c *)
(** frag.c:86-98 he_fragment_entry_reset *)
Fixpoint hreset_loop (fuel : nat) (pe : Z) : H unit :=
  match fuel with
  | O => hfault FFuel
  | S fuel =>
    let!! (d, t, f) := load_entry pe in
    if f =? 0 then hstore pe (KEntry (zeros HE_MAX_WIRE_MTU) 0 0)
    else
      let!! (_, _, _, next) := load_node f in
      hfree f ;;!
      hstore pe (KEntry d t next) ;;!
      hreset_loop fuel pe
  end.
Definition hreset (pe : Z) : H unit := hloop (fun fuel => hreset_loop fuel pe).

(** frag.c:113-116, 153-156, 163-167: a new node; the result of he_calloc is not
    checked. *)
Definition hnew_node (alloc : bool) (off n mf next : Z) : H Z :=
  let!! a := halloc alloc (KNode 0 0 false 0) in
  hstore a (KNode (u16 off) (u16 (off + n)) (mf =? 0) next) ;;!
  hret a.

(** frag.c:122-177: the walk over the list.  The result is false if it ends with
    BAD_FRAGMENT. *)
Fixpoint hwalk (fuel : nat) (alloc : bool) (pe off n mf prev curr : Z) : H bool :=
  match fuel with
  | O => hfault FFuel
  | S fuel =>
    if curr =? 0 then hret true else
    let!! (b, e, l, next) := load_node curr in
    if off =? e then                                                  (* 126-132 *)
      hstore curr (KNode b (u16 (off + n)) (mf =? 0) next) ;;!
      hwalk fuel alloc pe off n mf prev next
    else if off + n =? b then                                         (* 133-137 *)
      hstore curr (KNode (u16 off) e l next) ;;!
      hret true
    else if e <? off then                                             (* 138-161 *)
      if negb (next =? 0) then
        let!! (b2, _, l2, next2) := load_node next in
        if b2 =? e then
          hstore curr (KNode b b2 l2 next2) ;;!
          hfree next ;;!
          hwalk fuel alloc pe off n mf curr next2
        else hwalk fuel alloc pe off n mf curr next
      else
        let!! a := hnew_node alloc off n mf 0 in
        hstore curr (KNode b e l a) ;;!
        hret true
    else if off + n <? b then                                         (* 162-176 *)
      let!! a := hnew_node alloc off n mf curr in
      (if prev =? 0 then
         let!! (d, t, _) := load_entry pe in hstore pe (KEntry d t a)
       else
         let!! (pb, pe', pl, _) := load_node prev in hstore prev (KNode pb pe' pl a)) ;;!
      hret true
    else hret false                                                   (* 177 *)
  end.

(** frag.c:100-186 he_fragment_entry_update.  Result: code and [*assembled]. *)
Definition hupdate (alloc : bool) (pe : Z) (data : bytes) (off mf : Z) : H (Z * bool) :=
  let n := len data in
  if HE_MAX_WIRE_MTU <? off + n then hret (HE_ERR_PACKET_TOO_LARGE, false) else
  let!! (d, t, f) := load_entry pe in
  if f =? 0 then
    let!! a := hnew_node alloc off n mf 0 in
    hstore pe (KEntry d t a) ;;!
    let!! d := hlift (stn d off data) in
    hstore pe (KEntry d t a) ;;!
    hret (HE_SUCCESS, false)
  else
    let!! ok := hloop (fun fuel => hwalk fuel alloc pe off n mf 0 f) in
    if negb ok then hret (HE_ERR_BAD_FRAGMENT, false) else
    let!! (d, t, f) := load_entry pe in
    let!! d := hlift (stn d off data) in
    hstore pe (KEntry d t f) ;;!
    let!! (b, _, l, _) := load_node f in
    hret (HE_SUCCESS, l && (b =? 0)).

(** frag.c:188-204 he_internal_fragment_table_create *)
Definition htable_create (alloc1 alloc2 : bool) (num : Z) : H Z :=
  let!! t := halloc alloc1 (KTable 0 0) in
  if t =? 0 then hret 0 else
  let num := if num =? 0 then MAX_FRAGMENT_ENTRIES else num in
  let!! s := halloc alloc2 (KSlots (zeros num)) in
  if s =? 0 then hfree t ;;! hret 0
  else hstore t (KTable num s) ;;! hret t.

(** tbl->entries[idx], read and written *)
Definition hslot (s i : Z) : H Z :=
  let!! l := load_slots s in
  if (0 <=? i) && (i <? Z.of_nat (length l)) then hret (nth (Z.to_nat i) l 0) else hfault FBounds.
Definition list_put (l : list Z) (i v : Z) : list Z := firstn (Z.to_nat i) l ++ v :: skipn (S (Z.to_nat i)) l.
Definition hslot_set (s i v : Z) : H unit :=
  let!! l := load_slots s in
  if (0 <=? i) && (i <? Z.of_nat (length l)) then hstore s (KSlots (list_put l i v)) else hfault FBounds.

(** frag.c:206-221 he_internal_fragment_table_find *)
Definition hfind (alloc : bool) (now t id : Z) : H Z :=
  if t =? 0 then hret 0 else
  let!! (num, s) := load_table t in
  let i := u16 (id mod num) in
  let!! e := hslot s i in
  if e =? 0 then
    let!! e := halloc alloc (KEntry (zeros HE_MAX_WIRE_MTU) 0 0) in
    if e =? 0 then hret 0 else
    hstore e (KEntry (zeros HE_MAX_WIRE_MTU) now 0) ;;!
    hslot_set s i e ;;!
    hret e
  else hret e.

(** frag.c:223-234 he_internal_fragment_table_delete *)
Definition hdelete (t id : Z) : H unit :=
  if t =? 0 then hret tt else
  let!! (num, s) := load_table t in
  let i := u16 (id mod num) in
  let!! e := hslot s i in
  if e =? 0 then hret tt else
  hreset e ;;!
  hfree e ;;!
  hslot_set s i 0.

(** frag.c:241-248: the loop of destroy, from entry [i] on *)
Fixpoint hclear (s : Z) (n : nat) (i : Z) : H unit :=
  match n with
  | O => hret tt
  | S n =>
    let!! e := hslot s i in
    (if e =? 0 then hret tt else hreset e ;;! hfree e ;;! hslot_set s i 0) ;;!
    hclear s n (i + 1)
  end.
(** frag.c:236-251 he_internal_fragment_table_destroy *)
Definition htable_destroy (t : Z) : H unit :=
  if t =? 0 then hret tt else
  let!! (num, s) := load_table t in
  hclear s (Z.to_nat num) 0 ;;!
  hfree s ;;!
  hfree t.

(** msg_handlers.c:463-503 (the header is read, Conn.v): a fragment is taken up; the packet it completes, if
    it does, is given on (the callbacks are not part of this model) and its entry
    removed. *)
Definition hfrag (alloc1 alloc2 : bool) (now1 now2 t id off mf : Z) (data : bytes) : H (Z * option bytes) :=
  if HE_MAX_WIRE_MTU <? off + len data then hret (HE_ERR_POINTER_WOULD_OVERFLOW, None) else
  let!! e := hfind alloc1 now1 t id in
  if e =? 0 then hret (HE_ERR_NO_MEMORY, None) else
  let!! (_, time, _) := load_entry e in
  (if HE_FRAG_TTL <? now2 - time
   then hreset e ;;! let!! (d, _, f) := load_entry e in hstore e (KEntry d now2 f)
   else hret tt) ;;!
  let!! (rc, asm) := hupdate alloc2 e data off mf in
  if negb (rc =? HE_SUCCESS) then hret (rc, None)
  else if asm then
    let!! (d, _, f) := load_entry e in
    let!! (_, fe, _, _) := load_node f in
    let!! p := hlift (ldn d 0 fe) in
    hdelete t id ;;!
    hret (rc, Some p)
  else hret (rc, None).

(** ** plugin_chain.c *)
(** plugin_chain.c:23-25 he_plugin_create_chain *)
Definition hchain_create (alloc : bool) : H Z := halloc alloc (KChain 0 0).
(** plugin_chain.c:27-32 he_plugin_destroy_chain *)
Fixpoint hchain_destroy_rec (fuel : nat) (c : Z) : H unit :=
  match fuel with
  | O => hfault FFuel
  | S fuel =>
    if c =? 0 then hret tt else
    let!! (_, next) := load_chain c in
    hchain_destroy_rec fuel next ;;!
    hfree c
  end.
Definition hchain_destroy (c : Z) : H unit := hloop (fun fuel => hchain_destroy_rec fuel c).
(** plugin_chain.c:34-54 he_plugin_register_plugin *)
Fixpoint hregister_rec (fuel : nat) (alloc : bool) (c plugin : Z) : H Z :=
  match fuel with
  | O => hfault FFuel
  | S fuel =>
    if (c =? 0) || (plugin =? 0) then hret HE_ERR_NULL_POINTER else
    let!! (p, next) := load_chain c in
    if p =? 0 then hstore c (KChain plugin next) ;;! hret HE_SUCCESS
    else
      let!! next := (if next =? 0
                     then let!! x := hchain_create alloc in hstore c (KChain p x) ;;! hret x
                     else hret next) in
      if next =? 0 then hret HE_ERR_INIT_FAILED
      else hregister_rec fuel alloc next plugin
  end.
Definition hregister (alloc : bool) (c plugin : Z) : H Z := hloop (fun fuel => hregister_rec (S fuel) alloc c plugin).

(** plugin_chain.c:56-77, 79-103: the plugins he_plugin_ingress and
    he_plugin_egress come to, in order, if each lets the packet pass (what they do
    with it is in Conn.v) *)
Fixpoint hingress_rec (fuel : nat) (c : Z) : H (list Z) :=
  match fuel with
  | O => hfault FFuel
  | S fuel =>
    if c =? 0 then hret [] else
    let!! (p, next) := load_chain c in
    let!! l := hingress_rec fuel next in
    hret (if p =? 0 then l else p :: l)
  end.
Definition hingress (c : Z) : H (list Z) := hloop (fun fuel => hingress_rec fuel c).
Fixpoint hegress_rec (fuel : nat) (c : Z) : H (list Z) :=
  match fuel with
  | O => hfault FFuel
  | S fuel =>
    if c =? 0 then hret [] else
    let!! (_, next) := load_chain c in
    let!! l := hegress_rec fuel next in
    let!! (p, _) := load_chain c in
    hret (if p =? 0 then l else l ++ [p])
  end.
Definition hegress (c : Z) : H (list Z) := hloop (fun fuel => hegress_rec fuel c).

(** ** conn.c, ssl_ctx.c: what is owned *)
(** conn.c:143-145 he_conn_create *)
Definition hconn_create (alloc : bool) : H Z := halloc alloc (KConn 0 0).
(** conn.c:147-153 he_conn_destroy; wolfSSL_free takes NULL *)
Definition hconn_destroy (c : Z) : H unit :=
  if c =? 0 then hret tt else
  let!! (t, _) := load_conn c in
  htable_destroy t ;;!
  let!! (_, s) := load_conn c in
  hfree s ;;!
  hfree c.
(** conn.c:194-199, 220-223: the table and the WOLFSSL object of a connect.
    [ssl]: wolfSSL_new succeeds.  What comes after that allocates nothing of the
    library's own.  (Where wolfSSL_new fails, [wolf_ssl] is NULL.) *)
Definition hconn_connect (alloc1 alloc2 ssl : bool) (frags c : Z) : H Z :=
  let!! t := htable_create alloc1 alloc2 frags in
  let!! (_, s) := load_conn c in
  hstore c (KConn t s) ;;!
  if t =? 0 then hret HE_ERR_NO_MEMORY else
  let!! s := halloc ssl KObj in
  hstore c (KConn t s) ;;!
  if s =? 0 then hret HE_ERR_INIT_FAILED else hret HE_SUCCESS.
(** ssl_ctx.c:111-120 he_ssl_ctx_create, he_ssl_ctx_destroy *)
Definition hctx_create (alloc : bool) : H Z := halloc alloc (KCtx 0).
Definition hctx_destroy (x : Z) : H unit :=
  if x =? 0 then hret tt else
  let!! w := load_ctx x in
  hfree w ;;!
  hfree x.
(** ssl_ctx.c:168-178: the WOLFSSL_CTX of a start (of a context that is valid). *)
Definition hctx_start (new : bool) (x : Z) : H Z :=
  let!! w := halloc new KObj in
  let!! _ := load_ctx x in
  hstore x (KCtx w) ;;!
  if w =? 0 then hret HE_ERR_INIT_FAILED else hret HE_SUCCESS.

(** ** client.c *)
(** client.c:46-57 he_client_destroy *)
Definition hclient_destroy (c : Z) : H Z :=
  (if c =? 0 then hret tt else
   let!! (cn, x, i, o) := load_client c in
   hconn_destroy cn ;;!
   hctx_destroy x ;;!
   hchain_destroy i ;;!
   hchain_destroy o ;;!
   hfree c) ;;!
  hret HE_SUCCESS.
(** client.c:28-44 he_client_create; the five allocations *)
Definition hclient_create (a0 a1 a2 a3 a4 : bool) : H Z :=
  let!! c := halloc a0 (KClient 0 0 0 0) in
  if c =? 0 then hret 0 else
  let!! x := hctx_create a1 in
  let!! cn := hconn_create a2 in
  let!! i := hchain_create a3 in
  let!! o := hchain_create a4 in
  hstore c (KClient cn x i o) ;;!
  if (x =? 0) || (cn =? 0) || (i =? 0) || (o =? 0)
  then hclient_destroy c ;;! hret 0
  else hret c.
(** client.c:59-84 he_client_connect, with a valid configuration *)
Definition hclient_connect (new alloc1 alloc2 ssl : bool) (frags c : Z) : H Z :=
  let!! (_, x, _, _) := load_client c in
  let!! r := hctx_start new x in
  if negb (r =? HE_SUCCESS) then hret r else
  let!! (cn, _, _, _) := load_client c in
  hconn_connect alloc1 alloc2 ssl frags cn.

(** ** A client from creation to destruction *)
Inductive mop : Type :=
| MConnect (new alloc1 alloc2 ssl : bool) (frags : Z)
| MFrag (alloc1 alloc2 : bool) (now1 now2 id off mf : Z) (data : bytes)
| MPlugin (inside alloc : bool) (plugin : Z).
Definition mstep (c : Z) (o : mop) : H (Z * option bytes) :=
  match o with
  | MConnect new alloc1 alloc2 ssl frags =>
    let!! r := hclient_connect new alloc1 alloc2 ssl frags c in hret (r, None)
  | MFrag alloc1 alloc2 now1 now2 id off mf data =>
    let!! (cn, _, _, _) := load_client c in
    let!! (t, _) := load_conn cn in
    hfrag alloc1 alloc2 now1 now2 t id off mf data
  | MPlugin inside alloc plugin =>
    let!! (_, _, i, o) := load_client c in
    let!! r := hregister alloc (if inside then i else o) plugin in hret (r, None)
  end.
Fixpoint mrun (c : Z) (l : list mop) : H (list (mop * (Z * option bytes))) :=
  match l with
  | [] => hret []
  | o :: l => let!! r := mstep c o in let!! rs := mrun c l in hret ((o, r) :: rs)
  end.
