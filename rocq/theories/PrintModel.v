(** The routines that print: AP_list_print and AP_list_revprint (list.c), print_list (recv.c, compiled with INFO), Pprint_typemap
    (type.c, compiled with TEST_INTERNAL); and the ways to walk through a list that only the test program of list.c uses.

    What is printed is a sequence of texts and numbers; numbers are not turned into digits.  [printf] with a conversion that does
    not fit the type of its argument is undefined in C; [strict] says so.  Without [strict] it does what the LP64 calling convention
    does, %d shows the low 32 bits. *)
From Verif Require Import Base ListModel HandleModel TypeModel CopyModel SysModel.

(** What a printf such as list.c 370 shows: texts and numbers (not turned into digits). *)
Inductive shown := Text (s : string) | Num (n : Z).
(** The parts of a format such as list.c 370: literal text, %s, %d. *)
Inductive conv := Lit (s : string) | PctS | PctD.
(** The arguments after the format: a string, an int (list.c 370), a long (list.c 375). *)
Inductive arg := AStr (s : string) | AInt (n : Z) | ALong (n : Z).

Section PrintModel.
Variable strict : bool.

(** printf, as called in list.c 370, 375, 379, recv.c 149-161, type.c 849-862; see above for [strict]. *)
Fixpoint printf (fmt : list conv) (args : list arg) : res (list shown) :=
  match fmt with
  | [] => Ok []
  | Lit s :: f => do r <- printf f args; Ok (Text s :: r)
  | PctS :: f => match args with
                 | AStr s :: args => do r <- printf f args; Ok (Text s :: r)
                 | _ => UB "printf: %s without a string"
                 end
  | PctD :: f => match args with
                 | AInt n :: args => do r <- printf f args; Ok (Num n :: r)
                 | ALong n :: args => if strict then UB "printf: %d with a long"
                                      else do r <- printf f args; Ok (Num (to_s32 n) :: r)
                 | _ => UB "printf: %d without a number"
                 end
  end.

(** list.c 373-377: the loop of AP_list_print; [data] is the pointer as a number. *)
Fixpoint print_loop (fuel : nat) (cur : option Z) (h : lheap Z) : res (list shown) :=
  match fuel with
  | O => Diverge
  | S f =>
    match cur with
    | None => Ok []
    | Some _ => do it <- get_item h cur;
                do o <- printf [PctD; Lit " "] [ALong (it_data it)];
                do r <- print_loop f (it_next it) h; Ok (o ++ r)
    end
  end.
(** list.c 400-404: the loop of AP_list_revprint. *)
Fixpoint revprint_loop (fuel : nat) (cur : option Z) (h : lheap Z) : res (list shown) :=
  match fuel with
  | O => Diverge
  | S f =>
    match cur with
    | None => Ok []
    | Some _ => do it <- get_item h cur;
                do o <- printf [PctD; Lit " "] [ALong (it_data it)];
                do r <- revprint_loop f (it_prev it) h; Ok (o ++ r)
    end
  end.
(** list.c 366-380: AP_list_print. *)
Definition list_print (str : string) (l : Z) (h : lheap Z) : res (list shown) :=
  do hd <- get_list h l;
  do o <- printf [PctS; Lit " ("; PctD; Lit " items): "] [AStr str; AInt (l_count hd)];
  do b <- print_loop (lfuel h) (l_head hd) h;
  do e <- printf [Lit "\n"] [];
  Ok (o ++ b ++ e).
(** list.c 393-407: AP_list_revprint. *)
Definition list_revprint (str : string) (l : Z) (h : lheap Z) : res (list shown) :=
  do hd <- get_list h l;
  do o <- printf [PctS; Lit " ("; PctD; Lit " items): "] [AStr str; AInt (l_count hd)];
  do b <- revprint_loop (lfuel h) (l_tail hd) h;
  do e <- printf [Lit "\n"] [];
  Ok (o ++ b ++ e).

(** list.c 508-516: AP_list_braindead_next; 0 is NULL.  Gives the result and the new cursor, which AP_list_next leaves alone at
    the end. *)
Definition list_braindead_next (l : Z) (temp : option Z) (h : lheap Z) : res (Z * option Z) :=
  do r <- list_next l temp h;
  match r with Some (d, t) => Ok (d, t) | None => Ok (0, temp) end.
(** The loop that AP_list_braindead_next (list.c 508-516) is made for: while ((item = AP_list_braindead_next(list,&temp))) ... *)
Fixpoint braindead_loop (fuel : nat) (l : Z) (temp : option Z) (h : lheap Z) : res (list Z) :=
  match fuel with
  | O => Diverge
  | S f => do (d, t) <- list_braindead_next l temp h;
           if d =? 0 then Ok [] else do r <- braindead_loop f l t h; Ok (d :: r)
  end.
(** list.c 657-659: for (item=AP_list_head_item(l); item; item=AP_listitem_next(item)) ... AP_listitem_data(item); and the same
    from the item [cur] on, backwards with AP_listitem_prev. *)
Fixpoint forward_loop (fuel : nat) (cur : option Z) (h : lheap Z) : res (list Z) :=
  match fuel with
  | O => Diverge
  | S f => match cur with
           | None => Ok []
           | Some _ => do d <- listitem_data h cur; do n <- listitem_next h cur; do r <- forward_loop f n h; Ok (d :: r)
           end
  end.
(** list.c 657-659 with AP_listitem_prev (list.c 89-92) in place of AP_listitem_next; no caller in the sources. *)
Fixpoint backward_loop (fuel : nat) (cur : option Z) (h : lheap Z) : res (list Z) :=
  match fuel with
  | O => Diverge
  | S f => match cur with
           | None => Ok []
           | Some _ => do d <- listitem_data h cur; do n <- listitem_prev h cur; do r <- backward_loop f n h; Ok (d :: r)
           end
  end.

(** recv.c 147-151: print_item. *)
Definition print_item (s : sys) (item : slot) : res (list shown) := do r <- slot_req s item; printf [PctD; Lit "  "] [AInt (r_tag r)].
(** list.c 566-581 (AP_list_apply) with print_item; print_item returns 0, so the sum stays 0. *)
Fixpoint print_items (fuel : nat) (cur : option Z) (s : sys) : res (list shown) :=
  match fuel with
  | O => Diverge
  | S f =>
    match cur with
    | None => Ok []
    | Some _ => do it <- get_item (s_lists s) cur;
                do o <- print_item s (it_data it);
                do r <- print_items f (it_next it) s; Ok (o ++ r)
    end
  end.
(** recv.c 154-163: print_list. *)
Definition print_list (l : Z) (msg : string) (num : Z) (s : sys) : res (list shown) :=
  do o <- printf [PctS; Lit " "; PctD; Lit ": "] [AStr msg; AInt num];
  do hd <- get_list (s_lists s) l;
  do b <- print_items (lfuel (s_lists s)) (l_head hd) s;
  do e <- printf [Lit "\n"] [];
  Ok (o ++ b ++ e).
(** recv.c 101-103, send.c 90-92: what MPI_Irecv and MPI_Isend print when they queue a request; given the communicator. *)
Definition print_recvs (comm : Z) (s : sys) : res (list shown) :=
  do (p, s) <- handle_ptr comm s;
  do (cm, s) <- get_comm p s;
  print_list (c_recv cm) "recvlist for comm " (c_num cm) s.
(** send.c 90-92: what MPI_Isend prints when it queues a request; given the communicator. *)
Definition print_sends (comm : Z) (s : sys) : res (list shown) :=
  do (p, s) <- handle_ptr comm s;
  do (cm, s) <- get_comm p s;
  print_list (c_send cm) "sendlist for comm " (c_num cm) s.

Section Typemap.
Variable c : cfg.
(** type.c 843-865: Pprint_typemap.  lb and ub are long, extent is unsigned long, disp is long. *)
Definition print_pair (last : bool) (p : typepair) : res (list shown) :=
  do len <- Simpletype_length c (tp_type p);
  do o <- printf [Lit "(t"; PctD; Lit ":"; PctD; Lit ", o"; PctD; Lit ")"] [AInt (tp_type p); AInt len; ALong (tp_disp p)];
  do e <- (if last then Ok [] else printf [Lit ", "] []);
  Ok (o ++ e).
(** type.c 843-865: Pprint_typemap. *)
Definition Pprint_typemap (t : typestruct) : res (list shown) :=
  do extent <- Type_extent c t;
  do padding <- calc_padding c t;
  do o <- printf [Lit "Type with "; PctD; Lit " type pairs.\n>> lb is "; PctD; Lit "\n>> ub is "; PctD; Lit "\n>>Extent is "; PctD;
                  Lit "\n>>Epsilon based on "; PctD; Lit "\nTypemap: \n{"]
                 [AInt (ts_count t); ALong (ts_lb t); ALong (ts_ub t); ALong extent; AInt padding];
  do b <- for_loop 0 (ts_count t) (fun i r => do p <- arr_get (ts_pairs t) i; do x <- print_pair (i =? ts_count t - 1) p; Ok (r ++ x)) [];
  do e <- printf [Lit "}\n"] [];
  Ok (o ++ b ++ e).
End Typemap.
End PrintModel.
