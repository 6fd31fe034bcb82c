(** Model of what the library does when malloc fails (handles.c, list.c, type.c).  [avail] says whether the malloc call on the path
    succeeds; a failing malloc returns NULL.  The functions are those of [ListModel], [HandleModel] and [TypeModel] with the test
    of the result, if there is one, written out. *)
From Verif Require Import Base ListModel HandleModel TypeModel.
Set Implicit Arguments.

Section Lists.
Variable D : Type.
(** list.c 32-46: AP_listitem_malloc; the counter is incremented first. *)
Definition am_listitem_malloc (avail : bool) (h : lheap D) : res (Z * lheap D) :=
  do c <- chk_int (lh_itemcount h + 1);
  if negb avail then Abort "AP_listitem_malloc: malloc failure" else listitem_malloc h.
(** list.c 123-141: AP_list_new. *)
Definition am_list_new (avail : bool) (h : lheap D) : res (Z * lheap D) :=
  if negb avail then Abort "AP_list_new: malloc failure" else list_new h.
(** list.c 206-230, 241-263: AP_list_prepend and AP_list_append call AP_listitem_malloc first. *)
Definition am_prepend (avail : bool) (l : Z) (d : D) (h : lheap D) : res (Z * lheap D) :=
  do _ <- am_listitem_malloc avail h; list_prepend l d h.
(** list.c 241-263: AP_list_append calls AP_listitem_malloc first. *)
Definition am_append (avail : bool) (l : Z) (d : D) (h : lheap D) : res (Z * lheap D) :=
  do _ <- am_listitem_malloc avail h; list_append l d h.
(** list.c 528-559: AP_list_duplicate; [avail k] is for the k-th call of malloc, the one of AP_list_new being the 0th. *)
Fixpoint am_dup_loop (avail : nat -> bool) (k fuel : nat) (nl : Z) (cur prev : option Z) (h : lheap D) : res (option Z * lheap D) :=
  match fuel with
  | O => Diverge
  | S f =>
    match cur with
    | None => Ok (prev, h)
    | Some _ =>
        do (n, h) <- am_listitem_malloc (avail k) h;
        do it <- get_item h cur;
        do h <- put_item h (Some n) (w_data (it_data it));
        do h <- put_item h (Some n) (w_prev prev);
        do h <- match prev with
                | Some _ => put_item h prev (w_next (Some n))
                | None => put_list h nl (w_head (Some n)) end;
        do it <- get_item h cur;
        am_dup_loop avail (S k) f nl (it_next it) (Some n) h
    end
  end.
(** list.c 528-559: AP_list_duplicate. *)
Definition am_duplicate (avail : nat -> bool) (l : Z) (h : lheap D) : res (Z * lheap D) :=
  do (nl, h) <- am_list_new (avail 0%nat) h;
  do hd <- get_list h l;
  do (prev, h) <- am_dup_loop avail 1 (lfuel h) nl (l_head hd) None h;
  do h <- match prev with Some _ => put_item h prev (w_next None) | None => Ok h end;
  do h <- put_list h nl (w_tail prev);
  do hd <- get_list h l;
  do h <- put_list h nl (w_count (l_count hd));
  Ok (nl, h).
End Lists.

Section Handles.
Variable D : Type.
(** handles.c 79-92: mpi_malloc, which ends the program itself. *)
Definition mpi_malloc (avail : bool) : res unit := if negb avail then Abort "mpi_malloc: failed to allocate" else Ok tt.
(** handles.c 178-225: mpi_alloc_handle asks for storage only when it opens a block. *)
Definition am_alloc_handle (avail : bool) (t : htab D) : res (Z * (Z * Z) * htab D) :=
  do u <- (if ht_need_init t then init_handles t else Ok t);
  match ht_nextfree u with
  | Some _ => alloc_handle t
  | None => if ht_nblocks u =? MAX_BLOCKS then alloc_handle t else do _ <- mpi_malloc avail; alloc_handle t
  end.
End Handles.

(** type.c 259-389: Type_struct.  The result of malloc (311) is not tested; the first use is the store to temp->count (314). *)
Definition am_type_struct (c : cfg) (avail : bool) (jk : tjunk) (count : Z) (blocklens displacements : list Z) (olds : list typestruct) : res typestruct :=
  do _ <- struct_pass1 count blocklens displacements olds;
  if negb avail then UB "NULL datatype" else Type_struct c jk count blocklens displacements olds.
