(** Property theorems about the printing routines, the list walks and the true extent: C92, C93. *)
From Verif Require Import Base ListModel ListSpec ListRefine TypeModel TypeSpec CopyModel SysModel CollModel SysCalls SysSpec SysLog SysReach SysFinal SysEx CopyEx PropsList PrintModel PrintSpec PrintFacts.

(** C92: after every history of list calls, AP_list_print shows the number of items and the data in order, AP_list_revprint in
    reverse order, each datum as an int.  But the data are pointers: as C has it, printing them with %d is undefined, except when
    there are none. *)
Theorem C92_lists_printed :
  forall (junk : Z -> item Z) (ops : list (lop Z)),
    ListSpec.after Z Z.eqb ops (lheap_init junk) [] (fun h a => forall l xs str, look Z l a = Some xs ->
      list_print false str l h = Ok (list_text str (map snd xs)) /\
      list_revprint false str l h = Ok (list_text str (rev (map snd xs)))).
Proof. exact (fun junk ops => after_init Z Z.eqb junk ops _ (fun h a A l xs str L => match C92_lists_lemma h a l xs str A L with conj p (conj q _) => conj p q end)). Qed.
Print Assumptions C92_lists_printed.
Theorem C92_lists_printed_in_C :
  forall (junk : Z -> item Z) (ops : list (lop Z)),
    ListSpec.after Z Z.eqb ops (lheap_init junk) [] (fun h a => forall l xs str, look Z l a = Some xs ->
      (xs <> [] -> list_print true str l h = UB "printf: %d with a long" /\ list_revprint true str l h = UB "printf: %d with a long") /\
      (xs = [] -> list_print true str l h = Ok (list_text str []) /\ list_revprint true str l h = Ok (list_text str []))).
Proof. exact (fun junk ops => after_init Z Z.eqb junk ops _ (fun h a A l xs str L => match C92_lists_lemma h a l xs str A L with conj _ (conj _ q) => q end)). Qed.
Print Assumptions C92_lists_printed_in_C.
(** The claim that printing a list is defined in C fails. *)
Theorem C92_list_printing_refuted :
  (do (os, h) <- lexec_all ex_ops (lheap_init ex_junk); list_traverse 7 h) = Ok [5; 20] /\
  (do (os, h) <- lexec_all ex_ops (lheap_init ex_junk); list_print true "list" 7 h) = UB "printf: %d with a long" /\
  (do (os, h) <- lexec_all ex_ops (lheap_init ex_junk); list_print false "list" 7 h) =
    Ok [Text "list"; Text " ("; Num 2; Text " items): "; Num 5; Text " "; Num 20; Text " "; Text "\n"] /\
  (do (os, h) <- lexec_all ex_ops (lheap_init ex_junk); list_revprint false "list" 7 h) =
    Ok [Text "list"; Text " ("; Num 2; Text " items): "; Num 20; Text " "; Num 5; Text " "; Text "\n"].
Proof. do 3 (split; [vm_compute; reflexivity|]). vm_compute; reflexivity. Qed.
Print Assumptions C92_list_printing_refuted.

(** The walks over the items.  From the head item, forward, all data are seen in order.  From any item the data of that item, its
    neighbours, and the rest of the list in either direction. *)
Theorem C92_walks :
  forall (junk : Z -> item Z) (ops : list (lop Z)),
    ListSpec.after Z Z.eqb ops (lheap_init junk) [] (fun h a => forall l xs, look Z l a = Some xs ->
      (exists p, list_head_item l h = Ok p /\ forward_loop (lfuel h) p h = Ok (map snd xs)) /\
      (forall ys i d zs, xs = ys ++ (i, d) :: zs ->
         listitem_data h (Some i) = Ok d /\ listitem_next h (Some i) = Ok (ref_head Z zs) /\ listitem_prev h (Some i) = Ok (ref_head Z (rev ys)) /\
         forward_loop (lfuel h) (Some i) h = Ok (d :: map snd zs) /\ backward_loop (lfuel h) (Some i) h = Ok (d :: rev (map snd ys)))).
Proof. exact (fun junk ops => after_init Z Z.eqb junk ops _ (fun h a A l xs L => match C92_walks_lemma h a l xs A L with conj p (conj q _) => conj p q end)). Qed.
Print Assumptions C92_walks.
(** AP_list_braindead_next shows a list exactly up to the first NULL datum ... *)
Theorem C92_braindead_walk :
  forall (junk : Z -> item Z) (ops : list (lop Z)),
    ListSpec.after Z Z.eqb ops (lheap_init junk) [] (fun h a => forall l xs, look Z l a = Some xs ->
      braindead_loop (lfuel h) l None h = Ok (before_null (map snd xs))).
Proof. exact (fun junk ops => after_init Z Z.eqb junk ops _ (fun h a A l xs L => match C92_walks_lemma h a l xs A L with conj _ (conj _ q) => q end)). Qed.
Print Assumptions C92_braindead_walk.
(** ... so the whole list only when no datum is NULL; missing for the property: lists that hold NULL. *)
Theorem C92_braindead_walk_partial :
  forall (junk : Z -> item Z) (ops : list (lop Z)),
    ListSpec.after Z Z.eqb ops (lheap_init junk) [] (fun h a => forall l xs, look Z l a = Some xs -> ~ In 0 (map snd xs) ->
      braindead_loop (lfuel h) l None h = Ok (map snd xs)).
Proof.
  exact (fun junk ops => after_init Z Z.eqb junk ops _ (fun h a A l xs L N =>
    eq_trans (match C92_walks_lemma h a l xs A L with conj _ (conj _ q) => q end) (f_equal Ok (before_null_all _ N)))).
Qed.
Print Assumptions C92_braindead_walk_partial.
Definition null_ops : list (lop Z) := [ONew Z; OAppend 1 10; OAppend 1 0; OAppend 1 20].
Theorem C92_braindead_walk_refuted :
  (do (os, h) <- lexec_all null_ops (lheap_init ex_junk); list_traverse 1 h) = Ok [10; 0; 20] /\
  (do (os, h) <- lexec_all null_ops (lheap_init ex_junk); braindead_loop (lfuel h) 1 None h) = Ok [10].
Proof. split; vm_compute; reflexivity. Qed.
Print Assumptions C92_braindead_walk_refuted.
Example C92_walks_ex :
  (do (os, h) <- lexec_all null_ops (lheap_init ex_junk);
   do f <- forward_loop (lfuel h) (Some 3) h; do b <- backward_loop (lfuel h) (Some 3) h; do n <- listitem_next h (Some 3); do q <- listitem_prev h (Some 3);
   Ok (f, b, n, q)) = Ok ([0; 20], [0; 10], Some 4, Some 2).
Proof. vm_compute; reflexivity. Qed.

(** The INFO printouts of a communicator show its number and the tags of its pending requests in order (strictly by C, too). *)
Theorem C92_queues_printed :
  forall (c : cfg) (tj : Z -> tjunk) (strict : bool) (s : sys) (a : astate) (h : Z) (k : acomm),
    reach c tj s a -> comm_at a h = Some k ->
    print_recvs strict h s = Ok (queue_text "recvlist for comm " (k_uid k) (k_recvs k)) /\
    print_sends strict h s = Ok (queue_text "sendlist for comm " (k_uid k) (k_sends k)).
Proof. exact C92_queues_lemma. Qed.
Print Assumptions C92_queues_printed.

(** Pprint_typemap shows count, bounds, extent, the largest element size and the typemap, numbers cut to ints; as C has it,
    it is undefined for every type. *)
Theorem C92_types_printed :
  forall (c : cfg) (t : typestruct) (e : Z), cfg_ok c -> wf_ts c t -> Type_extent c t = Ok e ->
    exists pad, (typemap t = [] /\ pad = INT_MIN \/ is_max pad (sizes c (typemap t))) /\
      Pprint_typemap false c t = Ok (type_text (ts_count t) (ts_lb t) (ts_ub t) e pad (map (fun x => (fst x, esize c x, snd x)) (typemap t))) /\
      Pprint_typemap true c t = UB "printf: %d with a long".
Proof. exact C92_types_lemma. Qed.
Print Assumptions C92_types_printed.
Definition h_print : list call := [KInit; KIrecv 100 2 INTT 0 7 1; KCommDup 1; KIrecv 200 2 INTT 0 5 1; KIsend 300 2 INTT 0 6 3; KIrecv 400 2 INTT 0 (-1) 1].
Example C92_queues_ex :
  reach default_cfg ex_tj (ex_s h_print) (ex_a h_print) /\
  print_recvs true 1 (ex_s h_print) = Ok [Text "recvlist for comm "; Text " "; Num 0; Text ": "; Num 7; Text "  "; Num 5; Text "  "; Num (-1); Text "  "; Text "\n"] /\
  print_sends true 3 (ex_s h_print) = Ok [Text "sendlist for comm "; Text " "; Num 1; Text ": "; Num 6; Text "  "; Text "\n"].
Proof. split; [apply ex_reach; vm_compute; reflexivity|]. split; vm_compute; reflexivity. Qed.
Definition two_part : typestruct := mkTs 2 5 0 1 0 0 [mkPair 0 2; mkPair 4 0].
Example C92_types_ex :
  wf_ts default_cfg two_part /\ Type_extent default_cfg two_part = Ok 8 /\
  Pprint_typemap false default_cfg two_part = Ok ([Text "Type with "; Num 2; Text " type pairs.\n>> lb is "; Num 0; Text "\n>> ub is "; Num 5; Text "\n>>Extent is "; Num 8;
    Text "\n>>Epsilon based on "; Num 4; Text "\nTypemap: \n{"; Text "(t"; Num 2; Text ":"; Num 4; Text ", o"; Num 0; Text ")"; Text ", "; Text "(t"; Num 0; Text ":"; Num 1; Text ", o"; Num 4; Text ")"; Text "}\n"]).
Proof.
  split; [|split; vm_compute; reflexivity]. constructor; cbn; try (unfold INT_MAX; lia); try lia.
  - intros e [<-|[<-|[]]]; cbn; eauto.
  - intros e [<-|[<-|[]]]; cbn; unfold LONG_MIN, LONG_MAX; lia.
Qed.

(** C93: Type_get_true_extent is the extent the typemap has by itself - the span of the data, rounded up to the largest element -
    whatever MPI_LB and MPI_UB the type has, when the lowest displacement is an int. *)
Theorem C93_true_extent :
  forall (c : cfg) (t : typestruct) (lb ub : Z), cfg_ok c -> wf_ts c t -> is_lb (typemap t) lb -> is_ub c (typemap t) ub ->
    is_int lb -> ub - lb <= LONG_MAX - 4096 -> ub <= LONG_MAX ->
    exists x, Type_get_true_extent c t = Ok x /\ is_extent c (typemap t) x.
Proof. exact C93_lemma. Qed.
Print Assumptions C93_true_extent.
(** The standard's true extent is the span itself.  That comes out exactly when the largest element size divides the span; missing
    for the property: all other types, and displacements that are no ints. *)
Theorem C93_true_extent_partial :
  forall (c : cfg) (t : typestruct) (lb ub a : Z), cfg_ok c -> wf_ts c t -> is_lb (typemap t) lb -> is_ub c (typemap t) ub -> is_max a (sizes c (typemap t)) ->
    is_int lb -> ub - lb <= LONG_MAX - 4096 -> ub <= LONG_MAX -> (Type_get_true_extent c t = Ok (ub - lb) <-> (a | ub - lb)).
Proof. exact C93_partial_lemma. Qed.
Print Assumptions C93_true_extent_partial.
(** An int and a char: 8 instead of 5. *)
Theorem C93_true_extent_refuted :
  wf_ts default_cfg two_part /\ is_lb (typemap two_part) 0 /\ is_ub default_cfg (typemap two_part) 5 /\ Type_get_true_extent default_cfg two_part = Ok 8.
Proof.
  split; [apply C92_types_ex|]. split; [split; [vm_compute; auto|intros y [<-|[<-|[]]]; vm_compute; discriminate]|].
  split; [split; [vm_compute; auto|intros y [<-|[<-|[]]]; vm_compute; discriminate]|vm_compute; reflexivity].
Qed.
Print Assumptions C93_true_extent_refuted.
(** Displacements that are no ints: one int at 2^31 has true extent 8, one at - 2^32 has 2^64 - 2^31. *)
Definition far_part (d : Z) : typestruct := mkTs 1 (d + 4) d 1 0 0 [mkPair d 2].
Theorem C93_far_displacements_refuted :
  typemap (far_part 2147483648) = [(2, 2147483648)] /\ Type_get_true_extent default_cfg (far_part 2147483648) = Ok 8 /\
  typemap (far_part (-4294967296)) = [(2, -4294967296)] /\ Type_get_true_extent default_cfg (far_part (-4294967296)) = Ok (18446744073709551616 - 2147483648).
Proof. do 3 (split; [vm_compute; reflexivity|]). vm_compute; reflexivity. Qed.
Print Assumptions C93_far_displacements_refuted.
(** MPI_LB and MPI_UB have no part in it: with bounds -8 and 40 the true extent is still 8. *)
Example C93_ex :
  let t := mkTs 2 40 (-8) 1 1 1 [mkPair 0 2; mkPair 4 0] in
  Type_extent default_cfg t = Ok 48 /\ Type_get_true_extent default_cfg t = Ok 8.
Proof. split; vm_compute; reflexivity. Qed.
