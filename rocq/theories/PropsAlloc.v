(** Property theorems about running out of memory: C98. *)
From Verif Require Import Base ListModel ListSpec HandleModel HandleSpec TypeModel AllocModel AllocFacts.

(** C98: full statement: a call that needs storage when there is none ends the program with a message.

    After any history of legal list calls, making a list or an item without storage does so ([total] < INT_MAX because the count
    of items is incremented first). *)
Theorem C98_no_memory_lists :
  forall (D : Type) (deq : D -> D -> bool) (junk : Z -> item D) (ops : list (lop D)),
    after D deq ops (lheap_init junk) [] (fun h a =>
      (forall l d, total D a < INT_MAX ->
         am_append false l d h = Abort "AP_listitem_malloc: malloc failure" /\
         am_prepend false l d h = Abort "AP_listitem_malloc: malloc failure") /\
      am_list_new false h = Abort "AP_list_new: malloc failure").
Proof. exact C98_lists_lemma. Qed.
Print Assumptions C98_no_memory_lists.
(** After any history of legal handle calls, allocating a handle without storage ends the program exactly when every handle of
    the open blocks is taken and another block may be opened; otherwise the call is the ordinary one. *)
Theorem C98_no_memory_handles :
  forall (D : Type) (junk : Z -> Z -> hitem D) (ops : list (hop D)),
    hafter D ops (htab_init junk) (mkHstate D [] 0) (fun t a =>
      (am_alloc_handle false t = alloc_handle t \/ am_alloc_handle false t = Abort "mpi_malloc: failed to allocate") /\
      (am_alloc_handle false t = Abort "mpi_malloc: failed to allocate" <->
         ht_need_init t = false /\ nlive D a = 256 * ht_nblocks t - 1 /\ ht_nblocks t < 1024)).
Proof. exact C98_handles_lemma. Qed.
Print Assumptions C98_no_memory_handles.
(** With storage the calls are the ordinary ones; a duplication that runs out of storage half way ends the program, too. *)
Theorem C98_enough_memory :
  forall D : Type,
    (forall l d (h : lheap D), am_append true l d h = list_append l d h /\ am_prepend true l d h = list_prepend l d h /\ am_list_new true h = list_new h) /\
    (forall avail l (h : lheap D), (forall k, avail k = true) -> am_duplicate avail l h = list_duplicate l h) /\
    (forall avail l (h : lheap D), am_duplicate avail l h = list_duplicate l h \/ exists m, am_duplicate avail l h = Abort m) /\
    (forall t : htab D, am_alloc_handle true t = alloc_handle t).
Proof. exact C98_enough_lemma. Qed.
Print Assumptions C98_enough_memory.
(** Datatypes: the result of malloc is not tested, so every construction that would succeed uses a NULL pointer instead.  What is
    undefined before that point stays what it is, for example an array that is too short. *)
Theorem C98_no_memory_types_refuted :
  forall c jk count blocklens displacements olds,
    am_type_struct c true jk count blocklens displacements olds = Type_struct c jk count blocklens displacements olds /\
    (forall t, Type_struct c jk count blocklens displacements olds = Ok t ->
      am_type_struct c false jk count blocklens displacements olds = UB "NULL datatype") /\
    (am_type_struct c false jk count blocklens displacements olds = UB "NULL datatype" \/
     am_type_struct c false jk count blocklens displacements olds = Type_struct c jk count blocklens displacements olds) /\
    (Z.of_nat (length olds) < count ->
     am_type_struct c false jk count blocklens displacements olds = Type_struct c jk count blocklens displacements olds).
Proof. exact C98_types_lemma. Qed.
Print Assumptions C98_no_memory_types_refuted.

Definition am_heap : lheap Z := lheap_init (fun _ => mkItem 77 (Some 5) (Some 9)).
Definition am_tab : htab Z := htab_init (fun b i => mkHitem 99 None (b * 1000 + i)).
Fixpoint am_fill (n : nat) (t : htab Z) : res (htab Z) :=
  match n with O => Ok t | S n => do (_, _, t) <- alloc_handle t; am_fill n t end.
Example C98_lists_ex :
  (do (l, h) <- list_new am_heap; do (_, h) <- list_append l 7 h; am_append false l 8 h) =
    Abort "AP_listitem_malloc: malloc failure" /\
  (do (l, h) <- list_new am_heap; do (_, h) <- list_append l 7 h; do (_, h) <- list_append l 8 h;
   am_duplicate (fun k => (k <? 2)%nat) l h) = Abort "AP_listitem_malloc: malloc failure" /\
  (do (l, h) <- list_new am_heap; do (_, h) <- list_append l 7 h; do (_, h) <- list_append l 8 h;
   do (n, _) <- am_duplicate (fun k => (k <? 3)%nat) l h; Ok n) = Ok 4.
Proof. do 2 (split; [vm_compute; reflexivity|]). vm_compute. reflexivity. Qed.
(** 254 handles taken: the last free one needs no storage; 255 taken: the next one does. *)
Example C98_handles_ex :
  (do t <- am_fill 254 am_tab; do (h, _, _) <- am_alloc_handle false t; Ok h) = Ok 255 /\
  (do t <- am_fill 255 am_tab; do (h, _, _) <- am_alloc_handle false t; Ok h) = Abort "mpi_malloc: failed to allocate" /\
  (do t <- am_fill 255 am_tab; do (h, _, _) <- am_alloc_handle true t; Ok h) = Ok 256.
Proof. do 2 (split; [vm_compute; reflexivity|]). vm_compute. reflexivity. Qed.
Definition am_int : typestruct := mkTs 1 4 0 1 0 0 [mkPair 0 2].
Definition am_junk : tjunk := mkJunk 0 0 (fun _ => mkPair 0 0).
Example C98_types_ex :
  (exists t, Type_struct default_cfg am_junk 1 [2] [8] [am_int] = Ok t) /\
  am_type_struct default_cfg false am_junk 1 [2] [8] [am_int] = UB "NULL datatype" /\
  am_type_struct default_cfg false am_junk 2 [2] [8] [am_int] = Type_struct default_cfg am_junk 2 [2] [8] [am_int] /\
  am_type_struct default_cfg false am_junk 2 [2] [8] [am_int] <> UB "NULL datatype".
Proof.
  split; [eexists; vm_compute; reflexivity|]. split; [vm_compute; reflexivity|]. split; [vm_compute; reflexivity|]. vm_compute. discriminate.
Qed.
