(** Model of handles.c: the handle table (blocks of 256 items, free list).

    The union [data] stored in each item has an arbitrary type [D].  A pointer to a
    [Handleitem] is the pair (block, index).  Compiled without CHECKS, the default. *)
From Verif Require Import Base.
Set Implicit Arguments.

(** handles.c 49. *)
Definition BLOCK_ITEMS : Z := 256.
(** handles.c 50. *)
Definition HANDLE_TO_BLOCK (x : Z) : Z := Z.shiftr x 8.
(** handles.c 51. *)
Definition HANDLE_TO_INDEX (x : Z) : Z := Z.land x 255.
(** handles.c 52. *)
Definition HANDLE (block index : Z) : Z := Z.lor (Z.shiftl block 8) index.

(** handles.c 66. *)
Definition MAX_BLOCKS : Z := 1024.

Section HandleModel.
Variable D : Type.

(** handles.c 26-41: struct _Handleitem. *)
Record hitem := mkHitem { hi_handle : Z; hi_next : option (Z * Z); hi_data : D }.

(** handles.c 68-74: block0, blocks[], nblocks, need_to_init, nextfree.
    [ht_item b i] is the content of blocks[b][i]; it is meaningful for b < nblocks.
    Item contents of blocks not yet allocated stand for the junk malloc will return. *)
Record htab := mkHtab {
  ht_item : Z -> Z -> hitem;
  ht_nblocks : Z;
  ht_need_init : bool;
  ht_nextfree : option (Z * Z)
}.

(** A store into blocks[b][i] (handles.c 69), e.g. handles.c 116. *)
Definition item_upd (f : Z -> Z -> hitem) (b i : Z) (v : hitem) : Z -> Z -> hitem :=
  fun b' i' => if (b' =? b) && (i' =? i) then v else f b' i'.

(** [&blocks[b][i]] points to an item: blocks[0..nblocks-1] are allocated (handles.c 58, 69-70); otherwise blocks[b] is NULL or
    outside the array. *)
Definition valid_ptr (t : htab) (p : Z * Z) : bool :=
  let (b, i) := p in (0 <=? b) && (b <? ht_nblocks t) && (0 <=? i) && (i <? BLOCK_ITEMS).
(** Reading the item behind a pointer, e.g. handles.c 188; outside the allocated blocks it is undefined. *)
Definition h_get (t : htab) (p : Z * Z) : res hitem :=
  if valid_ptr t p then Ok (ht_item t (fst p) (snd p)) else UB "bad handle pointer".
(** Storing into the item behind a pointer, e.g. handles.c 307; outside the allocated blocks it is undefined. *)
Definition h_put (t : htab) (p : Z * Z) (v : hitem) : res htab :=
  if valid_ptr t p
  then Ok (mkHtab (item_upd (ht_item t) (fst p) (snd p) v) (ht_nblocks t) (ht_need_init t) (ht_nextfree t))
  else UB "bad handle pointer".
(** handles.c 74: a store to nextfree. *)
Definition set_nextfree (t : htab) (p : option (Z * Z)) : htab :=
  mkHtab (ht_item t) (ht_nblocks t) (ht_need_init t) p.
(** handles.c 73: a store to need_to_init. *)
Definition set_need_init (t : htab) (b : bool) : htab :=
  mkHtab (ht_item t) (ht_nblocks t) b (ht_nextfree t).

(** handles.c 116-117, 120-121: handle and next of one item; the data member keeps whatever it held. *)
Definition init_item (f : Z -> Z -> hitem) (block i : Z) (next : option (Z * Z)) : Z -> Z -> hitem :=
  item_upd f block i (mkHitem (HANDLE block i) next (hi_data (f block i))).
(** handles.c 110-124: init_block.  Works directly on the array [b] passed in, so it does not go through [blocks]. *)
Definition init_block (block : Z) (f : Z -> Z -> hitem) : res (Z -> Z -> hitem) :=
  do f <- for_loop 0 (BLOCK_ITEMS - 1)
            (fun i f => Ok (init_item f block i (Some (block, i + 1)))) f;
  Ok (init_item f block (BLOCK_ITEMS - 1) None).

(** handles.c 142, 212: new->next=NULL on a raw item. *)
Definition clear_next (f : Z -> Z -> hitem) (b i : Z) : Z -> Z -> hitem :=
  item_upd f b i (mkHitem (hi_handle (f b i)) None (hi_data (f b i))).

(** handles.c 129-157: init_handles (blocks[1..] = NULL is [nblocks] = 1 here). *)
Definition init_handles (t : htab) : res htab :=
  do f <- init_block 0 (ht_item t);
  let nf := hi_next (f 0 0) in
  Ok (mkHtab (clear_next f 0 0) 1 false nf).

(** handles.c 161-172: mpi_destroy_handles. *)
Definition destroy_handles (t : htab) : htab :=
  if ht_need_init t then t else set_need_init t true.

(** handles.c 178-225: mpi_alloc_handle; returns the handle and the address of the item's data. *)
Definition alloc_handle (t : htab) : res (Z * (Z * Z) * htab) :=
  do t <- (if ht_need_init t then init_handles t else Ok t);
  match ht_nextfree t with
  | Some new =>
      do it <- h_get t new;
      let t := set_nextfree t (hi_next it) in
      do t <- h_put t new (mkHitem (hi_handle it) None (hi_data it));
      Ok (hi_handle it, new, t)
  | None =>
      if ht_nblocks t =? MAX_BLOCKS then Abort "mpi_allocate_handle: max active handles exceeded"
      else
        let n := ht_nblocks t in
        do f <- init_block n (ht_item t);
        let nf := hi_next (f n 0) in
        Ok (hi_handle (f n 0), (n, 0),
            mkHtab (clear_next f n 0) (n + 1) (ht_need_init t) nf)
  end.

(** handles.c 247-266: mpi_handle_to_ptr; [None] is NULL.  Forming the address outside
    the table is undefined. *)
Definition handle_to_ptr (handle : Z) (t : htab) : res (option (Z * Z) * htab) :=
  do t <- (if ht_need_init t then init_handles t else Ok t);
  if handle =? 0 then Ok (None, t)
  else
    let p := (HANDLE_TO_BLOCK handle, HANDLE_TO_INDEX handle) in
    do _ <- h_get t p; Ok (Some p, t).

(** handles.c 270-309: mpi_free_handle. *)
Definition free_handle (handle : Z) (t : htab) : res htab :=
  if handle =? 0 then Ok t
  else if ht_need_init t then Abort "mpi_free_handle: handles not initialized"
  else
    let p := (HANDLE_TO_BLOCK handle, HANDLE_TO_INDEX handle) in
    do it <- h_get t p;
    do t <- h_put t p (mkHitem (hi_handle it) (ht_nextfree t) (hi_data it));
    Ok (set_nextfree t (Some p)).

(** Reading the object behind a data pointer (what callers do with the result of mpi_alloc_handle and mpi_handle_to_ptr, e.g.
    type.c 38 and req.c 35-37). *)
Definition h_read (t : htab) (p : Z * Z) : res D := do it <- h_get t p; Ok (hi_data it).
(** Writing the object behind a data pointer, e.g. comm.c 21-24. *)
Definition h_write (t : htab) (p : Z * Z) (d : D) : res htab :=
  do it <- h_get t p; h_put t p (mkHitem (hi_handle it) (hi_next it) d).

(** Program start (static storage: need_to_init=1, handles.c 73). *)
Definition htab_init (junk : Z -> Z -> hitem) : htab := mkHtab junk 0 true None.

(** Calls on the table (handles.c 161-309) and uses of the data, for histories. *)
Inductive hop := HAlloc | HFree (h : Z) | HLoad (h : Z) | HStore (h : Z) (d : D) | HDestroy.
(** Their results: handles.c 178 ( *handle ), 247 (the data behind the pointer). *)
Inductive hout := HUnit | HHandle (h : Z) | HData (d : D).

(** One call: handles.c 161-172, 178-225, 247-266, 270-309. *)
Definition hexec (op : hop) (t : htab) : res (hout * htab) :=
  match op with
  | HAlloc => do (h, _, t) <- alloc_handle t; Ok (HHandle h, t)
  | HFree h => do t <- free_handle h t; Ok (HUnit, t)
  | HLoad h => do (p, t) <- handle_to_ptr h t;
               match p with Some p => do d <- h_read t p; Ok (HData d, t) | None => UB "NULL" end
  | HStore h d => do (p, t) <- handle_to_ptr h t;
                  match p with Some p => do t <- h_write t p d; Ok (HUnit, t) | None => UB "NULL" end
  | HDestroy => Ok (HUnit, destroy_handles t)
  end.

End HandleModel.
