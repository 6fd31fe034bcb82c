(** Model of list.c (and listP.h): doubly linked lists of [void *], at pointer level.

    Items and lists are heap cells named by identifiers; [None] is NULL.
    [malloc] hands out a never-used identifier whose contents are whatever
    [lh_junk] says (uninitialised memory; a list header is written completely before use); malloc failure, which aborts, is
    not modelled.  [free] removes the cell, so any later access is [UB].
    The data pointers have an arbitrary type [D] with an equality test [deq]
    (pointer comparison).  Compiled without CHECKS, the default. *)
From Verif Require Import Base.

Set Implicit Arguments.

Section ListModel.
Variable D : Type.
Variable deq : D -> D -> bool.

(** listP.h 22-32: struct _Listitem (without the CHECKS field [list]). *)
Record item := mkItem { it_data : D; it_prev : option Z; it_next : option Z }.

(** listP.h 14-19: struct _List. *)
Record lhdr := mkHdr { l_head : option Z; l_tail : option Z; l_count : Z }.

(** The heap cells of items and lists, the static counters [itemcount], [headcount]
    (list.c 21-22), the next unused identifier, and the junk found in fresh memory. *)
Record lheap := mkHeap {
  lh_items : Z -> option item;
  lh_lists : Z -> option lhdr;
  lh_itemcount : Z;
  lh_headcount : Z;
  lh_next : Z;
  lh_junk : Z -> item
}.

(** Stores to the heap cells of items (listP.h 22-32). *)
Definition set_items h f := mkHeap f (lh_lists h) (lh_itemcount h) (lh_headcount h) (lh_next h) (lh_junk h).
(** Stores to the heap cells of lists (listP.h 14-19). *)
Definition set_lists h f := mkHeap (lh_items h) f (lh_itemcount h) (lh_headcount h) (lh_next h) (lh_junk h).
(** list.c 21: a store to itemcount. *)
Definition set_itemcount h n := mkHeap (lh_items h) (lh_lists h) n (lh_headcount h) (lh_next h) (lh_junk h).
(** list.c 22: a store to headcount. *)
Definition set_headcount h n := mkHeap (lh_items h) (lh_lists h) (lh_itemcount h) n (lh_next h) (lh_junk h).
(** A malloc (list.c 37, 127) uses up an identifier. *)
Definition bump_next h := mkHeap (lh_items h) (lh_lists h) (lh_itemcount h) (lh_headcount h) (lh_next h + 1) (lh_junk h).

(** Reading through a pListitem, e.g. list.c 91: NULL or freed is undefined. *)
Definition get_item (h : lheap) (p : option Z) : res item :=
  match p with
  | None => UB "NULL listitem"
  | Some i => match lh_items h i with Some it => Ok it | None => UB "dangling listitem" end
  end.
(** Storing through a pListitem, e.g. list.c 221: NULL or freed is undefined. *)
Definition put_item (h : lheap) (p : option Z) (f : item -> item) : res lheap :=
  match p with
  | None => UB "NULL listitem"
  | Some i => match lh_items h i with
              | Some it => Ok (set_items h (upd (lh_items h) i (Some (f it))))
              | None => UB "dangling listitem" end
  end.
(** Reading through a pList, e.g. list.c 194: freed is undefined. *)
Definition get_list (h : lheap) (l : Z) : res lhdr :=
  match lh_lists h l with Some x => Ok x | None => UB "dangling list" end.
(** Storing through a pList, e.g. list.c 223: freed is undefined. *)
Definition put_list (h : lheap) (l : Z) (f : lhdr -> lhdr) : res lheap :=
  match lh_lists h l with
  | Some x => Ok (set_lists h (upd (lh_lists h) l (Some (f x))))
  | None => UB "dangling list" end.

(** listP.h 24: the member data, e.g. list.c 212. *)
Definition w_data d it := mkItem d (it_prev it) (it_next it).
(** listP.h 25: the member prev, e.g. list.c 213. *)
Definition w_prev p it := mkItem (it_data it) p (it_next it).
(** listP.h 26: the member next, e.g. list.c 214. *)
Definition w_next p it := mkItem (it_data it) (it_prev it) p.
(** listP.h 16: the member head, e.g. list.c 135. *)
Definition w_head p l := mkHdr p (l_tail l) (l_count l).
(** listP.h 17: the member tail, e.g. list.c 136. *)
Definition w_tail p l := mkHdr (l_head l) p (l_count l).
(** listP.h 18: the member count, e.g. list.c 137. *)
Definition w_count n l := mkHdr (l_head l) (l_tail l) n.

(** list.c 32-46: AP_listitem_malloc. *)
Definition listitem_malloc (h : lheap) : res (Z * lheap) :=
  do c <- chk_int (lh_itemcount h + 1);
  let i := lh_next h in
  let h := set_itemcount h c in
  let h := set_items h (upd (lh_items h) i (Some (lh_junk h i))) in
  Ok (i, bump_next h).

(** list.c 57-61: AP_listitem_free.  free() of a pointer that is not live is undefined. *)
Definition listitem_free (h : lheap) (p : option Z) : res lheap :=
  do _ <- get_item h p;
  match p with
  | None => UB "free NULL"
  | Some i =>
      let h := set_items h (upd (lh_items h) i None) in
      do c <- chk_int (lh_itemcount h - 1);
      Ok (set_itemcount h c)
  end.

(** list.c 73-84: AP_listitem_verify (the stderr messages are not modelled). *)
Definition listitem_verify (h : lheap) : bool :=
  negb (lh_itemcount h =? 0) || negb (lh_headcount h =? 0).

(** list.c 89-107: AP_listitem_prev, AP_listitem_next, AP_listitem_data. *)
Definition listitem_prev (h : lheap) (p : option Z) : res (option Z) :=
  do it <- get_item h p; Ok (it_prev it).
(** list.c 96-99: AP_listitem_next. *)
Definition listitem_next (h : lheap) (p : option Z) : res (option Z) :=
  do it <- get_item h p; Ok (it_next it).
(** list.c 104-107: AP_listitem_data. *)
Definition listitem_data (h : lheap) (p : option Z) : res D :=
  do it <- get_item h p; Ok (it_data it).

(** list.c 123-141: AP_list_new.  All three header fields are written at once. *)
Definition list_new (h : lheap) : res (Z * lheap) :=
  let l := lh_next h in
  let h := bump_next (set_lists h (upd (lh_lists h) l (Some (mkHdr None None 0)))) in
  do c <- chk_int (lh_headcount h + 1);
  Ok (l, set_headcount h c).

(** list.c 162-170: the loop of AP_list_free; fuelled. *)
Fixpoint list_free_loop (fuel : nat) (cur : option Z) (count : Z) (h : lheap) : res (Z * lheap) :=
  match fuel with
  | O => Diverge
  | S f =>
    match cur with
    | None => Ok (count, h)
    | Some _ =>
        do it <- get_item h cur;
        let next := it_next it in
        do h1 <- listitem_free h cur;
        do c1 <- chk_int (count + 1);
        list_free_loop f next c1 h1
    end
  end.

(** Fuel for the [while (cur)] loops (list.c 162, 426, 454): one more than the number of identifiers ever handed out, hence
    more than the length of any well-formed list. *)
Definition lfuel (h : lheap) : nat := S (Z.to_nat (lh_next h)).

(** list.c 154-181: AP_list_free. *)
Definition list_free (l : Z) (h : lheap) : res lheap :=
  do hd <- get_list h l;
  do (count, h1) <- list_free_loop (lfuel h) (l_head hd) 0 h;
  do hd1 <- get_list h1 l;
  if negb (count =? l_count hd1)
  then Abort "AP_list_free: count does not match actual length"
  else
    do c <- chk_int (lh_headcount h1 - 1);
    let h2 := set_headcount h1 c in
    Ok (set_lists h2 (upd (lh_lists h2) l None)).

(** list.c 192-195: AP_list_size. *)
Definition list_size (l : Z) (h : lheap) : res Z :=
  do hd <- get_list h l; Ok (l_count hd).

(** list.c 206-230: AP_list_prepend. *)
Definition list_prepend (l : Z) (d : D) (h : lheap) : res (Z * lheap) :=
  do (n, h) <- listitem_malloc h;
  do h <- put_item h (Some n) (w_data d);
  do h <- put_item h (Some n) (w_prev None);
  do hd <- get_list h l;
  do h <- put_item h (Some n) (w_next (l_head hd));
  do h <- match l_head hd with
          | Some _ => put_item h (l_head hd) (w_prev (Some n))
          | None => Ok h end;
  do h <- put_list h l (w_head (Some n));
  do hd <- get_list h l;
  do h <- match l_tail hd with
          | None => put_list h l (w_tail (Some n))
          | Some _ => Ok h end;
  do hd <- get_list h l;
  do c <- chk_int (l_count hd + 1);
  do h <- put_list h l (w_count c);
  Ok (n, h).

(** list.c 241-263: AP_list_append. *)
Definition list_append (l : Z) (d : D) (h : lheap) : res (Z * lheap) :=
  do (n, h) <- listitem_malloc h;
  do h <- put_item h (Some n) (w_data d);
  do hd <- get_list h l;
  do h <- put_item h (Some n) (w_prev (l_tail hd));
  do h <- put_item h (Some n) (w_next None);
  do h <- match l_tail hd with
          | Some _ => put_item h (l_tail hd) (w_next (Some n))
          | None => put_list h l (w_head (Some n)) end;
  do h <- put_list h l (w_tail (Some n));
  do hd <- get_list h l;
  do c <- chk_int (l_count hd + 1);
  do h <- put_list h l (w_count c);
  Ok (n, h).

(** list.c 291-318: AP_list_delete_item. *)
Definition list_delete_item (l : Z) (p : option Z) (h : lheap) : res lheap :=
  do hd <- get_list h l;
  do h <- (if opt_eqb p (l_head hd)
           then do it <- get_item h p; put_list h l (w_head (it_next it))
           else do it <- get_item h p; put_item h (it_prev it) (w_next (it_next it)));
  do hd <- get_list h l;
  do h <- (if opt_eqb p (l_tail hd)
           then do it <- get_item h p; put_list h l (w_tail (it_prev it))
           else do it <- get_item h p; put_item h (it_next it) (w_prev (it_prev it)));
  do h <- listitem_free h p;
  do hd <- get_list h l;
  do c <- chk_int (l_count hd - 1);
  put_list h l (w_count c).

(** list.c 446-463: AP_list_search_func; [func] may itself fail ([res]). *)
Fixpoint search_loop (fuel : nat) (func : D -> res bool) (cur : option Z) (h : lheap) : res (option Z) :=
  match fuel with
  | O => Diverge
  | S f =>
    match cur with
    | None => Ok None
    | Some _ =>
        do it <- get_item h cur;
        do b <- func (it_data it);
        if b then Ok cur else search_loop f func (it_next it) h
    end
  end.
(** list.c 446-463: AP_list_search_func. *)
Definition list_search_func (l : Z) (func : D -> res bool) (h : lheap) : res (option Z) :=
  do hd <- get_list h l; search_loop (lfuel h) func (l_head hd) h.

(** list.c 420-435: AP_list_search (same loop, comparing the data pointer). *)
Definition list_search (l : Z) (d : D) (h : lheap) : res (option Z) :=
  do hd <- get_list h l; search_loop (lfuel h) (fun x => Ok (deq x d)) (l_head hd) h.

(** list.c 276-287: AP_list_delete. *)
Definition list_delete (l : Z) (d : D) (h : lheap) : res (Z * lheap) :=
  do p <- list_search l d h;
  match p with
  | Some _ => do h <- list_delete_item l p h; Ok (1, h)
  | None => Ok (0, h)
  end.

(** list.c 323-326: AP_list_head_item. *)
Definition list_head_item (l : Z) (h : lheap) : res (option Z) :=
  do hd <- get_list h l; Ok (l_head hd).

(** list.c 330-339, 343-352: AP_list_head, AP_list_tail.  [None] = returned 0 (and *data
    not written), [Some d] = returned 1 with *data = d. *)
Definition list_head (l : Z) (h : lheap) : res (option D) :=
  do hd <- get_list h l;
  match l_head hd with Some _ => do it <- get_item h (l_head hd); Ok (Some (it_data it)) | None => Ok None end.
(** list.c 343-352: AP_list_tail. *)
Definition list_tail (l : Z) (h : lheap) : res (option D) :=
  do hd <- get_list h l;
  match l_tail hd with Some _ => do it <- get_item h (l_tail hd); Ok (Some (it_data it)) | None => Ok None end.

(** list.c 478-498: AP_list_next.  [temp] is the iteration cursor; the result is
    [None] at the end, or the data and the new cursor. *)
Definition list_next (l : Z) (temp : option Z) (h : lheap) : res (option (D * option Z)) :=
  do cur <- match temp with
            | Some _ => do it <- get_item h temp; Ok (it_next it)
            | None => do hd <- get_list h l; Ok (l_head hd) end;
  match cur with
  | Some _ => do it <- get_item h cur; Ok (Some (it_data it, cur))
  | None => Ok None
  end.

(** A complete traversal the way callers write it (list.c 653-655, comm.c 241-250):
    [temp=NULL; while (AP_list_next(list,&item,&temp)) ...]; collects the data. *)
Fixpoint traverse_loop (fuel : nat) (l : Z) (temp : option Z) (h : lheap) : res (list D) :=
  match fuel with
  | O => Diverge
  | S f =>
      do r <- list_next l temp h;
      match r with
      | None => Ok []
      | Some (d, t) => do rest <- traverse_loop f l t h; Ok (d :: rest)
      end
  end.
(** list.c 653-654: a whole traversal with AP_list_next (478-498). *)
Definition list_traverse (l : Z) (h : lheap) : res (list D) := traverse_loop (lfuel h) l None h.

(** list.c 399-404 (AP_list_revprint): traversal from the tail through [prev]. *)
Fixpoint rev_loop (fuel : nat) (cur : option Z) (h : lheap) : res (list D) :=
  match fuel with
  | O => Diverge
  | S f =>
      match cur with
      | None => Ok []
      | Some _ => do it <- get_item h cur;
                  do rest <- rev_loop f (it_prev it) h; Ok (it_data it :: rest)
      end
  end.
(** list.c 399-404: the whole traversal from the tail. *)
Definition list_rev_traverse (l : Z) (h : lheap) : res (list D) :=
  do hd <- get_list h l; rev_loop (lfuel h) (l_tail hd) h.

(** list.c 537-551: the loop of AP_list_duplicate; returns [prev]. *)
Fixpoint dup_loop (fuel : nat) (nl : Z) (cur prev : option Z) (h : lheap) : res (option Z * lheap) :=
  match fuel with
  | O => Diverge
  | S f =>
    match cur with
    | None => Ok (prev, h)
    | Some _ =>
        do (n, h) <- listitem_malloc h;
        do it <- get_item h cur;
        do h <- put_item h (Some n) (w_data (it_data it));
        do h <- put_item h (Some n) (w_prev prev);
        do h <- match prev with
                | Some _ => put_item h prev (w_next (Some n))
                | None => put_list h nl (w_head (Some n)) end;
        do it <- get_item h cur;
        dup_loop f nl (it_next it) (Some n) h
    end
  end.

(** list.c 528-559: AP_list_duplicate. *)
Definition list_duplicate (l : Z) (h : lheap) : res (Z * lheap) :=
  do (nl, h) <- list_new h;
  do hd <- get_list h l;
  do (prev, h) <- dup_loop (lfuel h) nl (l_head hd) None h;
  do h <- match prev with Some _ => put_item h prev (w_next None) | None => Ok h end;
  do h <- put_list h nl (w_tail prev);
  do hd <- get_list h l;
  do h <- put_list h nl (w_count (l_count hd));
  Ok (nl, h).

(** list.c 563-581: AP_list_apply. *)
Fixpoint apply_loop (fuel : nat) (func : D -> res Z) (cur : option Z) (total : Z) (h : lheap) : res Z :=
  match fuel with
  | O => Diverge
  | S f =>
    match cur with
    | None => Ok total
    | Some _ =>
        do it <- get_item h cur;
        do v <- func (it_data it);
        do t <- chk_int (total + v);
        apply_loop f func (it_next it) t h
    end
  end.
(** list.c 563-581: AP_list_apply. *)
Definition list_apply (l : Z) (func : D -> res Z) (h : lheap) : res Z :=
  do hd <- get_list h l; apply_loop (lfuel h) func (l_head hd) 0 h.

(** Program start: no items, no lists, counters zero (list.c 21-22). *)
Definition lheap_init (junk : Z -> item) : lheap :=
  mkHeap (fun _ => None) (fun _ => None) 0 0 1 junk.

(** One call of the list interface (list.h 19-43, list.c 73-581).  [OTraverse]/[ORev] are whole traversals. *)
Inductive lop :=
| ONew | OFree (l : Z) | OSize (l : Z)
| OPrepend (l : Z) (d : D) | OAppend (l : Z) (d : D)
| ODelete (l : Z) (d : D) | ODeleteItem (l : Z) (i : Z)
| OHeadItem (l : Z) | OHead (l : Z) | OTail (l : Z)
| OSearch (l : Z) (d : D) | OSearchFunc (l : Z) (f : D -> bool)
| ONext (l : Z) (temp : option Z) | ODup (l : Z) | OApply (l : Z) (f : D -> Z)
| OTraverse (l : Z) | ORev (l : Z) | OVerify.

(** What such a call (list.c 73-581) returns. *)
Inductive lout :=
| RUnit | RPtr (p : option Z) | RInt (n : Z) | RData (d : option D)
| RNext (r : option (D * option Z)) | RSeq (s : list D).

(** One call: dispatches to the functions above (list.c 73-581). *)
Definition lexec (op : lop) (h : lheap) : res (lout * lheap) :=
  match op with
  | ONew => do (l, h) <- list_new h; Ok (RPtr (Some l), h)
  | OFree l => do h <- list_free l h; Ok (RUnit, h)
  | OSize l => do n <- list_size l h; Ok (RInt n, h)
  | OPrepend l d => do (i, h) <- list_prepend l d h; Ok (RPtr (Some i), h)
  | OAppend l d => do (i, h) <- list_append l d h; Ok (RPtr (Some i), h)
  | ODelete l d => do (r, h) <- list_delete l d h; Ok (RInt r, h)
  | ODeleteItem l i => do h <- list_delete_item l (Some i) h; Ok (RUnit, h)
  | OHeadItem l => do p <- list_head_item l h; Ok (RPtr p, h)
  | OHead l => do d <- list_head l h; Ok (RData d, h)
  | OTail l => do d <- list_tail l h; Ok (RData d, h)
  | OSearch l d => do p <- list_search l d h; Ok (RPtr p, h)
  | OSearchFunc l f => do p <- list_search_func l (fun d => Ok (f d)) h; Ok (RPtr p, h)
  | ONext l t => do r <- list_next l t h; Ok (RNext r, h)
  | ODup l => do (n, h) <- list_duplicate l h; Ok (RPtr (Some n), h)
  | OApply l f => do n <- list_apply l (fun d => Ok (f d)) h; Ok (RInt n, h)
  | OTraverse l => do s <- list_traverse l h; Ok (RSeq s, h)
  | ORev l => do s <- list_rev_traverse l h; Ok (RSeq s, h)
  | OVerify => Ok (RInt (if listitem_verify h then 1 else 0), h)
  end.

End ListModel.
