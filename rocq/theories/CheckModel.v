(** Model of what handles.c and list.c do when compiled with CHECKS: the same code with the consistency tests compiled in.
    The extra member [list] of struct _Listitem (listP.h 28-30) is kept beside the heap, as a map from items to lists; for
    an item fresh from malloc it gives whatever was in the storage. *)
From Verif Require Import Base ListModel HandleModel.
Set Implicit Arguments.

Section CheckedHandles.
Variable D : Type.

(** handles.c 230-244: verify_handle. *)
Definition verify_handle (t : htab D) (handle block index : Z) : res unit :=
  if (ht_nblocks t <=? block) || (block <? 0) || (BLOCK_ITEMS <=? index) || (index <? 0)
  then Abort "mpi_verify_handle: bad handle"
  else
    do it <- h_get t (block, index);
    if negb (hi_handle it =? handle) then Abort "mpi_verify_handle: handle mismatch" else Ok tt.

(** handles.c 247-266: mpi_handle_to_ptr with CHECKS. *)
Definition ck_handle_to_ptr (handle : Z) (t : htab D) : res (option (Z * Z) * htab D) :=
  do t <- (if ht_need_init t then init_handles t else Ok t);
  if handle =? 0 then Ok (None, t)
  else
    let p := (HANDLE_TO_BLOCK handle, HANDLE_TO_INDEX handle) in
    do _ <- verify_handle t handle (fst p) (snd p);
    do _ <- h_get t p; Ok (Some p, t).

(** handles.c 270-309: mpi_free_handle with CHECKS. *)
Definition ck_free_handle (handle : Z) (t : htab D) : res (htab D) :=
  if handle =? 0 then Ok t
  else if ht_need_init t then Abort "mpi_free_handle: handles not initialized"
  else
    let p := (HANDLE_TO_BLOCK handle, HANDLE_TO_INDEX handle) in
    do _ <- verify_handle t handle (fst p) (snd p);
    do it <- h_get t p;
    match hi_next it with
    | Some _ => Abort "mpi_free_handle: handle still in use"
    | None =>
        do t <- h_put t p (mkHitem (hi_handle it) (ht_nextfree t) (hi_data it));
        Ok (set_nextfree t (Some p))
    end.

(** handles.c 161-172, 178-225, 247-266, 270-309: calls on the table; mpi_alloc_handle and mpi_destroy_handles have no checks. *)
Definition ck_hexec (op : hop D) (t : htab D) : res (hout D * htab D) :=
  match op with
  | HFree _ h => do t <- ck_free_handle h t; Ok (HUnit D, t)
  | HLoad _ h => do (p, t) <- ck_handle_to_ptr h t;
                 match p with Some p => do d <- h_read t p; Ok (HData d, t) | None => UB "NULL" end
  | HStore h d => do (p, t) <- ck_handle_to_ptr h t;
                  match p with Some p => do t <- h_write t p d; Ok (HUnit D, t) | None => UB "NULL" end
  | HAlloc _ | HDestroy _ => hexec op t
  end.
End CheckedHandles.

Section CheckedLists.
Variable D : Type.
Variable deq : D -> D -> bool.

(** listP.h 28-30: the heap and the member [list] of every item. *)
Definition ckheap : Type := (lheap D * (Z -> Z))%type.

(** list.c 206-230, 241-263 with CHECKS: AP_list_prepend and AP_list_append also set new->list (216-218, 250-252).
    The stores to the other members do not depend on it, so it is done last. *)
Definition ck_prepend (l : Z) (d : D) (x : ckheap) : res (Z * ckheap) :=
  do (n, h) <- list_prepend l d (fst x); Ok (n, (h, upd (snd x) n l)).
(** list.c 241-263: AP_list_append with CHECKS (250-252). *)
Definition ck_append (l : Z) (d : D) (x : ckheap) : res (Z * ckheap) :=
  do (n, h) <- list_append l d (fst x); Ok (n, (h, upd (snd x) n l)).

(** list.c 291-318 with CHECKS: AP_list_delete_item. *)
Definition ck_delete_item (l : Z) (p : option Z) (x : ckheap) : res ckheap :=
  do _ <- get_item (fst x) p;
  match p with
  | None => UB "NULL listitem"
  | Some i =>
      if negb (snd x i =? l) then Abort "AP_list_delete_item: item is not in list"
      else do h <- list_delete_item l p (fst x); Ok (h, snd x)
  end.

(** list.c 276-287: AP_list_delete. *)
Definition ck_delete (l : Z) (d : D) (x : ckheap) : res (Z * ckheap) :=
  do p <- list_search deq l d (fst x);
  match p with
  | Some _ => do x <- ck_delete_item l p x; Ok (1, x)
  | None => Ok (0, x)
  end.

(** The list interface; the other functions (also AP_list_duplicate, list.c 528-559) have no code under CHECKS. *)
Definition ck_lexec (op : lop D) (x : ckheap) : res (lout D * ckheap) :=
  match op with
  | OPrepend l d => do (i, x) <- ck_prepend l d x; Ok (RPtr D (Some i), x)
  | OAppend l d => do (i, x) <- ck_append l d x; Ok (RPtr D (Some i), x)
  | ODelete l d => do (r, x) <- ck_delete l d x; Ok (RInt D r, x)
  | ODeleteItem _ l i => do x <- ck_delete_item l (Some i) x; Ok (RUnit D, x)
  | _ => do (o, h) <- lexec deq op (fst x); Ok (o, (h, snd x))
  end.
End CheckedLists.
