(** The test program of list.c, compiled with LISTMAIN (list.c 592-705), and its loop that deletes items while it walks over them.

    Data are pointers as numbers; (void * ) i of an int in range is that number, and (int) of a pointer keeps its low 32 bits
    (gcc).  What the program prints is the sequence [shown] of PrintModel.v; [strict] is explained there. *)
From Verif Require Import Base ListModel HandleModel TypeModel CopyModel SysModel PrintModel.
Local Open Scope string_scope.

Section ListMainModel.
Variable strict : bool.

(** list.c 675-691: the body of the walk, [i] items after its start.  The program deletes when i%2 is not 0; here any [sel] of the
    position and the datum decides.  The successor is read before the item is deleted. *)
Fixpoint weed_loop (fuel : nat) (sel : Z -> Z -> bool) (l : Z) (item : option Z) (i : Z) (h : lheap Z) : res (list shown * lheap Z) :=
  match fuel with
  | O => Diverge
  | S f =>
    match item with
    | None => Ok ([], h)
    | Some _ =>
      do d <- listitem_data h item;
      do o <- printf strict [Lit "  Got item "; PctD] [AInt (to_s32 d)];
      do next <- listitem_next h item;
      do (o2, h) <- (if sel i d then do h <- list_delete_item l item h; do o2 <- printf strict [Lit " - deleted\n"] []; Ok (o2, h)
                     else do o2 <- printf strict [Lit "\n"] []; Ok (o2, h));
      do i <- chk_int (i + 1);
      do (r, h) <- weed_loop f sel l next i h;
      Ok (o ++ o2 ++ r, h)%list
    end
  end.
(** list.c 674-675: the start of the walk (its title is printed in [list_main]). *)
Definition weed (sel : Z -> Z -> bool) (l : Z) (h : lheap Z) : res (list shown * lheap Z) :=
  do item <- list_head_item l h; weed_loop (lfuel h) sel l item 0 h.

(** The state of the program (list.c 594-704): what is printed so far, and the heap. *)
Definition mst : Type := list shown * lheap Z.
(** One printing call of list.c 594-704. *)
Definition show (p : lheap Z -> res (list shown)) (s : mst) : res mst := do o <- p (snd s); Ok ((fst s ++ o)%list, snd s).
(** One printf of list.c 594-704. *)
Definition say (fmt : list conv) (args : list arg) : mst -> res mst := show (fun _ => printf strict fmt args).
(** AP_list_print, then AP_list_revprint, as in list.c 606-607. *)
Definition both (str rstr : string) (l : Z) (s : mst) : res mst :=
  do s <- show (list_print strict str l) s; show (list_revprint strict rstr l) s.
(** One call of list.c 594-704 that changes the heap. *)
Definition act (f : lheap Z -> res (lheap Z)) (s : mst) : res mst := do h <- f (snd s); Ok (fst s, h).

(** list.c 654-655 and 658-659: the printing of the two walks. *)
Fixpoint got_items (ds : list Z) : res (list shown) :=
  match ds with
  | [] => Ok []
  | d :: r => do o <- printf strict [Lit "  Got item "; PctD; Lit "\n"] [AInt (to_s32 d)]; do q <- got_items r; Ok (o ++ q)%list
  end.

(** list.c 603-608: one turn of the first loop. *)
Definition front (l i : Z) (s : mst) : res mst :=
  do s <- act (fun h => do (_, h) <- list_prepend l i h; Ok h) s; both "current" "    rev" l s.
(** list.c 612-617: one turn of the second loop. *)
Definition back (l i : Z) (s : mst) : res mst :=
  do s <- act (fun h => do (_, h) <- list_append l i h; Ok h) s; both "new" "    rev" l s.
(** list.c 619-633: a deletion whose result is ignored. *)
Definition less (str : string) (l i : Z) (s : mst) : res mst :=
  do s <- act (fun h => do (_, h) <- list_delete Z.eqb l i h; Ok h) s; both str "  rev" l s.
(** list.c 642-645 and 647-650: a search and what it prints. *)
Definition find (l i : Z) (yes no : string) (s : mst) : res mst :=
  do p <- list_search Z.eqb l i (snd s); say [Lit (match p with Some _ => yes | None => no end)] [] s.

(** list.c 594-704: main.  Gives what is printed and whether AP_listitem_verify complains. *)
Definition listmain (junk : Z -> item Z) : res (list shown * bool) :=
  do (mylist, h) <- list_new (lheap_init junk);
  do s <- for_loop 1 10 (front mylist) ([], h);
  do n <- list_size mylist (snd s);
  do s <- say [Lit "Size "; PctD; Lit "\n"] [AInt n] s;
  do s <- for_loop 10 15 (back mylist) s;
  do s <- less "less 5" mylist 5 s;
  do s <- less "less 9" mylist 9 s;
  do s <- less "less 14" mylist 14 s;
  do s <- less "less 2" mylist 2 s;
  do (r, h) <- list_delete Z.eqb mylist 0 (snd s);
  do s <- say [Lit (if (r =? 0)%Z then "(did not delete 0)\n" else "ERROR - found 0\n")] [] (fst s, h);
  do s <- both "less 0" "  rev" mylist s;
  do s <- find mylist 4 "Found 4\n" "Did not find 4\n" s;
  do s <- find mylist 9 "Found 9\n" "Did not find 9\n" s;
  do s <- say [Lit "Traversal by AP_list_next()\n"] [] s;
  do s <- show (fun h => do ds <- list_traverse mylist h; got_items ds) s;
  do s <- say [Lit "Traversal by AP_listitem_next()\n"] [] s;
  do s <- show (fun h => do p <- list_head_item mylist h; do ds <- forward_loop (lfuel h) p h; got_items ds) s;
  do (list2, h) <- list_duplicate mylist (snd s);
  do s <- both "Original list" "  rev" mylist (fst s, h);
  do s <- both "Duplicate    " "  rev" list2 s;
  do s <- act (fun h => do (_, h) <- list_append list2 99 h; Ok h) s;
  do s <- both "Dup add 99   " "  rev" list2 s;
  do s <- say [Lit "Traversal by AP_listitem_next(), deleting\n"] [] s;
  do (o, h) <- weed (fun i _ => negb (Z.rem i 2 =? 0)%Z) list2 (snd s);
  do s <- show (list_print strict "After delete-traversal" list2) ((fst s ++ o)%list, h);
  do s <- act (list_free mylist) s;
  do s <- both "After del    " "  rev" list2 s;
  do s <- act (list_free list2) s;
  Ok (fst s, listitem_verify (snd s)).
End ListMainModel.
