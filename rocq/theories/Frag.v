(** Model of src/he/frag.c: fragment entries and the fragment table.
    ([he_internal_frag_and_send_message] itself, which sends, is in Conn.v;
    here is the message it builds for one fragment.) *)
From Verif Require Import Base Codes.

(** frag.h:40-45 he_fragment_entry_node_t, without the [next] pointer: the
    linked list is a Coq list. *)
Record node := Node { n_begin : Z; n_end : Z; n_last : bool }.

(** frag.h:48-53 he_fragment_entry_t. *)
Record entry := Entry { fe_data : bytes; fe_time : Z; fe_nodes : list node }.

(** frag.c:86-98 he_fragment_entry_reset (entry non-NULL).  Frees are not
    modelled: the nodes are simply no longer there. *)
Definition entry_reset (e : entry) : entry :=
  Entry (zeros HE_MAX_WIRE_MTU) 0 [].

(** A new node: [he_calloc], then three stores.  [alloc] says whether the
    allocation succeeds; the code does not check, so a failure is a NULL
    dereference (frag.c:114-118, 155-159, 165-168).  uint16_t fields. *)
Definition new_node (alloc : bool) (off n : Z) (mf : Z) : res node :=
  if alloc then Val (Node (u16 off) (u16 (off + n)) (mf =? 0)) else Ub UB_null.

(** frag.c:124-177, the walk.  The list is split in [kept] (head .. [prev], in
    reverse), [skip] (the nodes after [prev] and before [curr], in reverse: the
    code advances [curr] without moving [prev] when it extends a node) and
    [rest] ([curr] and what follows).  Result: the new list and whether the
    loop was left normally ([true]) or through BAD_FRAGMENT ([false]). *)
Fixpoint walk (alloc : bool) (off n mf : Z) (kept skip rest : list node) {struct rest}
  : res (list node * bool) :=
  match rest with
  | [] => Val (rev kept ++ rev skip, true)
  | curr :: tl =>
    if off =? n_end curr then                                       (* 126-132 *)
      walk alloc off n mf kept (Node (n_begin curr) (u16 (off + n)) (mf =? 0) :: skip) tl
    else if off + n =? n_begin curr then                            (* 133-137 *)
      Val (rev kept ++ rev skip ++ Node (u16 off) (n_end curr) (n_last curr) :: tl, true)
    else if n_end curr <? off then                                  (* 138-161 *)
      match tl with
      | next :: tl' =>
        if n_begin next =? n_end curr then
          (* combine: curr->end = next->begin, next is freed *)
          walk alloc off n mf
               (Node (n_begin curr) (n_begin next) (n_last next) :: skip ++ kept) [] tl'
        else walk alloc off n mf (curr :: skip ++ kept) [] tl
      | [] => do nd <- new_node alloc off n mf;
              Val (rev kept ++ rev skip ++ [curr; nd], true)
      end
    else if off + n <? n_begin curr then                            (* 162-176 *)
      (* node->next = curr; prev ? prev->next = node : head = node;
         the nodes in [skip] fall out of the list *)
      do nd <- new_node alloc off n mf;
      Val (rev kept ++ nd :: curr :: tl, true)
    else Val (rev kept ++ rev skip ++ curr :: tl, false)            (* 177 *)
  end.

(** frag.c:100-186 he_fragment_entry_update (no argument NULL).  [data] is the
    fragment's payload ([length] = its length, a size_t).  Result: return code,
    [*assembled] (initially false, msg_handlers.c:481), new entry. *)
Definition entry_update (alloc : bool) (e : entry) (data : bytes) (off mf : Z)
  : res (Z * bool * entry) :=
  let n := len data in
  if HE_MAX_WIRE_MTU <? off + n then Val (HE_ERR_PACKET_TOO_LARGE, false, e) else
  match fe_nodes e with
  | [] =>
    do nd <- new_node alloc off n mf;
    do d <- stn (fe_data e) off data;
    Val (HE_SUCCESS, false, Entry d (fe_time e) [nd])
  | _ =>
    do r <- walk alloc off n mf [] [] (fe_nodes e);
    let '(nodes, ok) := r in
    if ok then
      do d <- stn (fe_data e) off data;
      match nodes with
      | [] => Ub UB_null                     (* entry->fragments->last_frag *)
      | h :: _ => Val (HE_SUCCESS, n_last h && (n_begin h =? 0), Entry d (fe_time e) nodes)
      end
    else Val (HE_ERR_BAD_FRAGMENT, false, Entry (fe_data e) (fe_time e) nodes)
  end.

(** frag.h:56-59 he_fragment_table_t: the number of entries and the entries
    themselves, as a function of the index. *)
Record table := Table { t_num : Z; t_get : Z -> option entry }.
Definition t_set (t : table) (i : Z) (o : option entry) : table :=
  Table (t_num t) (fun j => if j =? i then o else t_get t j).

(** frag.c:188-204 he_internal_fragment_table_create; [None] is NULL. *)
Definition table_create (alloc1 alloc2 : bool) (num : Z) : option table :=
  if negb alloc1 then None else
  let num := if num =? 0 then MAX_FRAGMENT_ENTRIES else num in
  if negb alloc2 then None else Some (Table num (fun _ => None)).

(** frag.c:211, 227: the slot of a fragment id. *)
Definition slot (t : table) (id : Z) : Z := u16 (id mod t_num t).

(** frag.c:206-221 he_internal_fragment_table_find; a new entry is stored in the
    table before it is returned.  [now] is time(NULL). *)
Definition table_find (alloc : bool) (now : Z) (t : table) (id : Z) : option entry * table :=
  match t_get t (slot t id) with
  | Some e => (Some e, t)
  | None =>
    if alloc then
      let e := Entry (zeros HE_MAX_WIRE_MTU) now [] in
      (Some e, t_set t (slot t id) (Some e))
    else (None, t)
  end.

(** frag.c:223-234 he_internal_fragment_table_delete. *)
Definition table_delete (t : table) (id : Z) : table := t_set t (slot t id) None.

(** frag.c:53-74: the message for one fragment, built in a zeroed buffer of
    HE_MAX_WIRE_MTU bytes; [rest] is what is left of the packet from [offset]
    on ([packet + offset], [length] bytes).  The value is the buffer. *)
Definition frag_len (length fsize : Z) : Z := if fsize <? length then fsize else length.
Definition frag_mf (length fsize : Z) : Z := if fsize <? length then 1 else 0.
Definition frag_off_field (offset mf : Z) : Z := u16 (Z.lor (offset / 8) (mf * 8192)).
Definition frag_msg (le : bool) (packet : bytes) (id offset length fsize : Z) : res bytes :=
  let b := zeros HE_MAX_WIRE_MTU in
  do b <- st8 b 0 HE_MSGID_DATA_WITH_FRAG;
  do b <- sth16 le b 1 (htons le (frag_len length fsize));
  do b <- sth16 le b 3 (htons le id);
  do b <- sth16 le b 5 (htons le (frag_off_field offset (frag_mf length fsize)));
  do src <- ldn packet offset (frag_len length fsize);
  stn b sizeof_data_frag src.

(** msg_handlers.c:459-489, the part of he_handle_msg_data_with_frag that works
    on the table: look up, expire, update.  [now1] is the time(NULL) of
    he_internal_fragment_table_find, [now2] the one at msg_handlers.c:471.
    Result: return code, the assembled packet if there is one (the first
    [fragments->end] bytes of the entry's buffer), the new table. *)
Definition frag_store (alloc1 alloc2 : bool) (now1 now2 : Z) (t : table)
    (id off mf : Z) (data : bytes) : res (Z * option bytes * table) :=
  match table_find alloc1 now1 t id with
  | (None, t) => Val (HE_ERR_NO_MEMORY, None, t)
  | (Some e, t) =>
    let e := if HE_FRAG_TTL <? now2 - fe_time e
             then Entry (fe_data (entry_reset e)) now2 (fe_nodes (entry_reset e)) else e in
    do r <- entry_update alloc2 e data off mf;
    let '(rc, asm, e) := r in
    let t := t_set t (slot t id) (Some e) in
    if negb (rc =? HE_SUCCESS) then Val (rc, None, t)
    else if asm then
      match fe_nodes e with
      | h :: _ => do p <- ldn (fe_data e) 0 (n_end h); Val (rc, Some p, t)
      | [] => Ub UB_null
      end
    else Val (rc, None, t)
  end.
