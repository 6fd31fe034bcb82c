(** Model of collective.c, op.c, group.c, cart.c, ic_merge.c and the handle-level part of pack.c.

    Array arguments of which only some entries are read are lists; reading beyond the end is undefined.
    The communicator argument of the collectives is never looked at and is left out. *)
From Verif Require Import Base ListModel HandleModel TypeModel CopyModel SysModel.

(** mpi.h 68: (void * )(-1). *)
Definition MPI_IN_PLACE : Z := to_u64 (-1).

Section CollModel.
Variable c : cfg.

(** The root test in collective.c 39-46, 75-82, 117-124, 232-239, 275-282. *)
Definition root_test (root : Z) (msg : string) (e : M unit) : M unit :=
  if root =? MPI_ROOT then ret tt
  else if negb (root =? 0) then pure (Abort msg) else e.
(** offset=displs[0]*extent: computed in unsigned long, truncated to int; e.g. collective.c 126-127. *)
Definition offset_of (datatype : Z) (displs : list Z) : M Z :=
  let* e := MPI_Type_extent c datatype in
  let* d := pure (arr_get displs 0) in
  ret (to_s32 (to_u64 (to_u64 d * e))).

(** The collectives with their C arguments; collective.c 18-21, 36-50, 68-89, 107-135, 154-167, 185-204, 225-245, 265-291,
    310-324, 341-352, 372-377, 395-401, 418-426, 445-471, 491-504. *)
Inductive coll :=
| CBarrier
| CBcast (buf count ty root : Z)
| CGather (sbuf scount sty rbuf rcount rty root : Z)
| CGatherv (sbuf scount sty rbuf : Z) (rcounts displs : list Z) (rty root : Z)
| CAllgather (sbuf scount sty rbuf rcount rty : Z)
| CAllgatherv (sbuf scount sty rbuf : Z) (rcounts displs : list Z) (rty : Z)
| CScatter (sbuf scount sty rbuf rcount rty root : Z)
| CScatterv (sbuf : Z) (scounts displs : list Z) (sty rbuf rcount rty root : Z)
| CReduce (sbuf rbuf count ty op root : Z)
| CAllreduce (sbuf rbuf count ty op : Z)
| CReduceScatter (sbuf rbuf : Z) (rcounts : list Z) (ty op : Z)
| CScan (sbuf rbuf count ty op : Z)
| CAlltoall (sbuf scount sty rbuf rcount rty : Z)
| CAlltoallv (sbuf : Z) (scounts sdispls : list Z) (sty rbuf : Z) (rcounts rdispls : list Z) (rty : Z)
| CAlltoallw (sbuf : Z) (scounts sdispls stys : list Z) (rbuf : Z) (rcounts rdispls rtys : list Z).

(** collective.c 18-21, 36-50, 68-89, 107-135, 154-167, 185-204, 225-245, 265-291, 310-324, 341-352, 372-377, 395-401, 418-426,
    445-471, 491-504: the collectives. *)
Definition MPI_coll (k : coll) : M unit :=
  match k with
  | CBarrier => ret tt
  | CBcast buf count ty root => root_test root "MPI_Bcast: bad root" (ret tt)
  | CGather sb sn st rb rn rt root =>
      if sb =? MPI_IN_PLACE then ret tt else
      root_test root "MPI_Gather: bad root" (copy_data2 c sb sn st rb rn rt)
  | CGatherv sb sn st rb rns ds rt root =>
      if sb =? MPI_IN_PLACE then ret tt else
      root_test root "MPI_Gatherv: bad root"
        (let* offset := offset_of rt ds in
         let* rn := pure (arr_get rns 0) in
         copy_data2 c sb sn st (padd rb offset) rn rt)
  | CAllgather sb sn st rb rn rt =>
      if sb =? MPI_IN_PLACE then ret tt else copy_data2 c sb sn st rb rn rt
  | CAllgatherv sb sn st rb rns ds rt =>
      if sb =? MPI_IN_PLACE then ret tt else
      let* offset := offset_of rt ds in
      let* rn := pure (arr_get rns 0) in
      copy_data2 c sb sn st (padd rb offset) rn rt
  | CScatter sb sn st rb rn rt root =>
      if rb =? MPI_IN_PLACE then ret tt else
      root_test root "MPI_Scatter: bad root" (copy_data2 c sb sn st rb rn rt)
  | CScatterv sb sns ds st rb rn rt root =>
      if rb =? MPI_IN_PLACE then ret tt else
      root_test root "MPI_Scatterv: bad root"
        (let* offset := offset_of st ds in
         let* sn := pure (arr_get sns 0) in
         copy_data2 c (padd sb offset) sn st rb rn rt)
  | CReduce sb rb n ty op root =>
      if negb (root =? 0) then pure (Abort "MPI_Reduce: bad root") else copy_data2 c sb n ty rb n ty
  | CAllreduce sb rb n ty op => if sb =? MPI_IN_PLACE then ret tt else copy_data2 c sb n ty rb n ty
  | CReduceScatter sb rb rns ty op => let* n := pure (arr_get rns 0) in copy_data2 c sb n ty rb n ty
  | CScan sb rb n ty op => copy_data2 c sb n ty rb n ty
  | CAlltoall sb sn st rb rn rt => copy_data2 c sb sn st rb rn rt
  | CAlltoallv sb sns sds st rb rns rds rt =>
      let* soff := offset_of st sds in
      let* roff := offset_of rt rds in
      let* sn := pure (arr_get sns 0) in
      let* rn := pure (arr_get rns 0) in
      copy_data2 c (padd sb soff) sn st (padd rb roff) rn rt
  | CAlltoallw sb sns sds sts rb rns rds rts =>
      let* sd := pure (arr_get sds 0) in
      let* sn := pure (arr_get sns 0) in
      let* st := pure (arr_get sts 0) in
      let* rd := pure (arr_get rds 0) in
      let* rn := pure (arr_get rns 0) in
      let* rt := pure (arr_get rts 0) in
      copy_data2 c (padd sb sd) sn st (padd rb rd) rn rt
  end.

(** op.c 14-18: every operation is the value 0. *)
Definition MPI_Op_create (function commute : Z) : Z := 0.

(** pack.c 23-34, 114-124, 84-94: MPI_Pack, MPI_Unpack, MPI_Pack_size.  The communicator is looked up and not used.
    [position] goes in and comes out by value. *)
Definition MPI_Pack (inbuf incount datatype outbuf outsize position comm : Z) : M Z :=
  let* t := get_type c datatype in
  let* _ := handle_ptr comm in
  fun s => do (m, p) <- Pack c (s_mem s) inbuf incount (snd t) outbuf outsize position; Ok (p, set_mem s m).
(** pack.c 114-124: MPI_Unpack; as above. *)
Definition MPI_Unpack (inbuf insize position outbuf outcount datatype comm : Z) : M Z :=
  let* t := get_type c datatype in
  let* _ := handle_ptr comm in
  fun s => do (m, p) <- Unpack c (s_mem s) inbuf insize position outbuf outcount (snd t); Ok (p, set_mem s m).
(** pack.c 84-94: MPI_Pack_size; as above. *)
Definition MPI_Pack_size (incount datatype comm : Z) : M Z :=
  let* t := get_type c datatype in
  let* _ := handle_ptr comm in
  pure (Pack_size c incount (snd t)).

(** cart.c 20-34: MPI_Cart_create. *)
Definition MPI_Cart_create (comm_old ndims : Z) (dims periods : list Z) (reorder : Z) : M Z :=
  let* _ := mfor ndims (fun i _ =>
     let* d := pure (arr_get dims i) in
     if d >? 1 then pure (Abort "MPI_Cart_create: Greater dimension than no. of procs") else ret tt) tt in
  MPI_Comm_dup comm_old.

End CollModel.

(** cart.c 57-67: MPI_Cart_get; the results are the arrays dims, periods and coords. *)
Definition MPI_Cart_get (comm maxdims : Z) (dims periods coords : list Z) : res (list Z * list Z * list Z) :=
  for_loop 0 maxdims (fun i st =>
    let '(dims, periods, coords) := st in
    do dims <- arr_set dims i 1;
    do coords <- arr_set coords i 0;
    Ok (dims, periods, coords)) (dims, periods, coords).
(** cart.c 87-101: MPI_Cart_coords. *)
Definition MPI_Cart_coords (comm rank maxdims : Z) (coords : list Z) : res (list Z) :=
  if negb (rank =? 0) then Abort "MPI_Cart_coords: Rank != 0" else
  for_loop 0 maxdims (fun i coords => arr_set coords i 0) coords.
(** cart.c 119-133: MPI_Dims_create. *)
Definition MPI_Dims_create (nnodes ndims : Z) (dims : list Z) : res (list Z) :=
  if nnodes >? 1 then Abort "MPI_Dims_create: More nodes than procs specified." else
  for_loop 0 ndims (fun i dims => arr_set dims i 1) dims.

(** ic_merge.c 11-15: MPI_Intercomm_merge.  The assignment changes the parameter, not the variable it points to;
    the result is the caller's variable. *)
Definition MPI_Intercomm_merge (intercomm high newintracomm : Z) : Z := newintracomm.

(** group.c 16-37, 58-80: MPI_Group_incl, MPI_Group_range_incl.  A range is (first, last, stride). *)
Definition MPI_Group_incl (group n : Z) (ranks : list Z) : res Z :=
  if group =? MPI_GROUP_NULL then Abort "MPI_Group_incl: null group passed in"
  else if (group =? MPI_GROUP_EMPTY) || (n =? 0) then Ok MPI_GROUP_EMPTY
  else
    do one <- (if n =? 1 then do r <- arr_get ranks 0; Ok (r =? 0) else Ok false);
    if one : bool then Ok MPI_GROUP_ONE else Abort "MPI_Group_incl: more than 1 proc in group".
(** group.c 58-80: MPI_Group_range_incl. *)
Definition MPI_Group_range_incl (group n : Z) (ranges : list (Z * Z * Z)) : res Z :=
  if group =? MPI_GROUP_NULL then Abort "MPI_Group_range_incl: null group passed in"
  else if (group =? MPI_GROUP_EMPTY) || (n =? 0) then Ok MPI_GROUP_EMPTY
  else
    do one <- (if n =? 1 then do r <- arr_get ranges 0; Ok ((fst (fst r) =? 0) && (snd (fst r) =? 0)) else Ok false);
    if one : bool then Ok MPI_GROUP_ONE else Abort "MPI_Group_range_incl: more than 1 proc in group".
(** group.c 98-114, 129-146, 162-178: union, intersection, difference. *)
Definition MPI_Group_union (g1 g2 : Z) : res Z :=
  if (g1 =? MPI_GROUP_NULL) || (g2 =? MPI_GROUP_NULL) then Abort "MPI_Group_union: null group passed in"
  else if (g1 =? MPI_GROUP_ONE) || (g2 =? MPI_GROUP_ONE) then Ok MPI_GROUP_ONE else Ok MPI_GROUP_EMPTY.
(** group.c 129-146: MPI_Group_intersection. *)
Definition MPI_Group_intersection (g1 g2 : Z) : res Z :=
  if (g1 =? MPI_GROUP_NULL) || (g2 =? MPI_GROUP_NULL) then Abort "MPI_Group_intersection: null group passed in"
  else if (g1 =? MPI_GROUP_ONE) && (g2 =? MPI_GROUP_ONE) then Ok MPI_GROUP_ONE else Ok MPI_GROUP_EMPTY.
(** group.c 162-178: MPI_Group_difference. *)
Definition MPI_Group_difference (g1 g2 : Z) : res Z :=
  if (g1 =? MPI_GROUP_NULL) || (g2 =? MPI_GROUP_NULL) then Abort "MPI_Group_intersection: null group passed in"
  else if (g1 =? MPI_GROUP_EMPTY) || (g2 =? MPI_GROUP_ONE) then Ok MPI_GROUP_EMPTY else Ok MPI_GROUP_ONE.
(** group.c 192-197: MPI_Group_free; the result is the caller's variable. *)
Definition MPI_Group_free (group : Z) : Z := MPI_GROUP_NULL.
(** group.c 214-252: MPI_Group_translate_ranks; the result is the array ranks2. *)
Definition MPI_Group_translate_ranks (g1 n : Z) (ranks1 : list Z) (g2 : Z) (ranks2 : list Z) : res (list Z) :=
  if (g1 =? MPI_GROUP_NULL) || (g2 =? MPI_GROUP_NULL) then Abort "MPI_Group_translate_ranks: null group passed in"
  else if n =? 0 then Ok ranks2
  else if g1 =? MPI_GROUP_EMPTY then Abort "MPI_Group_translate_ranks: empty input group"
  else for_loop 0 n (fun i ranks2 =>
    do r <- arr_get ranks1 i;
    if negb (r =? 0) then Abort "MPI_Group_translate_ranks: bad input rank" else
    arr_set ranks2 i (if negb (g2 =? MPI_GROUP_EMPTY) then r else MPI_UNDEFINED)) ranks2.
