(** Model of type.c, type_const.c and type.h: datatypes as structures, before handles.

    [struct Typestruct] is a record; its flexible member [pairs] is the list of the pairs that fit
    in the storage malloc was asked for.  Storage that the code never writes (o_lb, o_ub, unused pairs)
    holds arbitrary values supplied by a [tjunk] argument.  Reading such a value is not treated as
    undefined, it just yields the arbitrary value. *)
From Verif Require Import Base.

(** type.h 100-110: configured Fortran sizes; copy.c 73: TYPE_CHECKING. *)
Record cfg := mkCfg { fsize_real : Z; fsize_dprec : Z; type_checking : bool }.
(** type.h 100-110 without configuration options. *)
Definition default_cfg : cfg := mkCfg 4 8 false.

(** type.h 53. *)
Definition SIMPLE_LOWER : Z := 12.
(** type.h 54. *)
Definition SIMPLE_UPPER : Z := 13.

(** type.h 17-21: typepair. *)
Record typepair := mkPair { tp_disp : Z; tp_type : Z }.
(** type.h 23-36: Typestruct. *)
Record typestruct := mkTs {
  ts_count : Z; ts_ub : Z; ts_lb : Z; ts_committed : Z; ts_olb : Z; ts_oub : Z;
  ts_pairs : list typepair
}.

(** Contents of fresh malloc storage (type.c 311) where the code does not write it. *)
Record tjunk := mkJunk { j_olb : Z; j_oub : Z; j_pair : Z -> typepair }.

Section TypeModel.
Variable c : cfg.

(** type.c 68-141: Simpletype_length; type.h 112-116.  LP64 sizes of the C types. *)
Definition Simpletype_length (t : Z) : res Z :=
  match t with
  | 0 => Ok 1 | 1 => Ok 2 | 2 => Ok 4 | 3 => Ok 8
  | 4 => Ok 1 | 5 => Ok 2 | 6 => Ok 4 | 7 => Ok 8
  | 8 => Ok 4 | 9 => Ok 8 | 10 => Ok 16 | 11 => Ok 1
  | 14 => Ok 4
  | 15 => Ok (fsize_real c)
  | 16 => Ok (fsize_dprec c)
  | 17 => Ok (2 * fsize_real c)
  | 18 => Ok (2 * fsize_dprec c)
  | 19 => Ok 4 | 20 => Ok 1
  | 21 => Ok 1 | 22 => Ok 2 | 23 => Ok 4 | 24 => Ok 8
  | 26 => Ok 4 | 27 => Ok 8 | 28 => Ok 16
  | 29 => Ok 8 | 30 => Ok 16 | 31 => Ok 32
  | 32 => Ok 8 | 33 => Ok 8 | 34 => Ok 8
  | _ => Exit 1 "Invalid simple type"
  end.

(** type.c 46-60: calc_padding. *)
Definition calc_padding (t : typestruct) : res Z :=
  do m <- for_loop 0 (ts_count t) (fun i size_max =>
            do p <- arr_get (ts_pairs t) i;
            do len <- Simpletype_length (tp_type p);
            Ok (if len >? size_max then len else size_max)) INT_MIN;
  Ok (to_s32 m).

(** type.c 147-161: calc_lb (min_disp is an int). *)
Definition calc_lb (t : typestruct) : res Z :=
  for_loop 0 (ts_count t) (fun i min_disp =>
    do p <- arr_get (ts_pairs t) i;
    Ok (to_s32 (if tp_disp p <? min_disp then tp_disp p else min_disp))) INT_MAX.

(** type.c 168-183: calc_ub. *)
Definition calc_ub (t : typestruct) : res Z :=
  for_loop 0 (ts_count t) (fun i max_disp =>
    do p <- arr_get (ts_pairs t) i;
    do len <- Simpletype_length (tp_type p);
    do e <- chk_long (tp_disp p + len);
    Ok (if e >? max_disp then e else max_disp)) INT_MIN.

(** C remainder (truncating), as in type.c 195; division by zero is undefined. *)
Definition crem (a b : Z) : res Z := if b =? 0 then UB "division by zero" else Ok (Z.rem a b).

(** type.c 188-208: Type_extent; the result is an MPI_Aint, i.e. unsigned long. *)
Definition Type_extent (t : typestruct) : res Z :=
  if (ts_olb t =? 0) && (ts_oub t =? 0) then
    do epsilon <- calc_padding t;
    do d <- chk_long (ts_ub t - ts_lb t);
    do m <- crem d epsilon;
    let m := to_s32 m in
    do epsilon <- (if m =? 0 then Ok 0 else chk_int (epsilon - m));
    do e <- chk_long (d + epsilon);
    Ok (to_u64 e)
  else
    do d <- chk_long (ts_ub t - ts_lb t);
    Ok (to_u64 d).

(** type.c 227-241: Type_get_true_extent. *)
Definition Type_get_true_extent (t : typestruct) : res Z :=
  do epsilon <- calc_padding t;
  do ub <- calc_ub t;
  do lb <- calc_lb t;
  do d <- chk_long (ub - lb);
  do m <- crem d epsilon;
  do epsilon <- (if m =? 0 then Ok 0 else chk_long (epsilon - m));
  do e <- chk_long (d + epsilon);
  Ok (to_u64 e).

(** type.c 280, 287, 327: the test on pairs[0].type. *)
Definition first_type (t : typestruct) : res Z := do p <- arr_get (ts_pairs t) 0; Ok (tp_type p).

(** type.c 273-310: first pass of Type_struct.
    State: new_lb, new_ub, override_lower, override_upper, simpletype_count. *)
Definition struct_pass1 (count : Z) (blocklens : list Z) (displacements : list Z) (olds : list typestruct)
  : res (Z * Z * bool * bool * Z) :=
  for_loop 0 count (fun i st =>
    let '(new_lb, new_ub, ol, ou, sc) := st in
    do temp2 <- arr_get olds i;
    do ft <- first_type temp2;
    if ft =? SIMPLE_LOWER then
      do d <- arr_get displacements i;
      Ok (if new_lb >? d then d else new_lb, new_ub, true, ou, sc)
    else if ft =? SIMPLE_UPPER then
      do d <- arr_get displacements i;
      Ok (new_lb, if new_ub <? d then d else new_ub, ol, true, sc)
    else
      do b <- arr_get blocklens i;
      do prod <- chk_int (b * ts_count temp2);
      do sc <- chk_int (sc + prod);
      Ok (new_lb, new_ub, ol || negb (ts_olb temp2 =? 0), ou || negb (ts_oub temp2 =? 0), sc))
  (LONG_MAX, to_u64 LONG_MIN, false, false, 0).

(** type.c 316-358: second pass.  State: new_lb, new_ub, pairs written so far ([newcount] is their number;
    they are written at consecutive positions).  [cap] is the number of pairs that fit in the storage. *)
Definition struct_pass2 (cap : Z) (count : Z) (blocklens : list Z) (displacements : list Z)
    (olds : list typestruct) (new_lb new_ub : Z) : res (Z * Z * list typepair) :=
  for_loop 0 count (fun i st =>
    do temp2 <- arr_get olds i;
    do ft <- first_type temp2;
    if (ft =? SIMPLE_LOWER) || (ft =? SIMPLE_UPPER) then Ok st
    else
      do b <- arr_get blocklens i;
      for_loop 0 b (fun j st =>
        let '(new_lb, new_ub, acc) := st in
        do extent <- Type_extent temp2;
        let tmp_offset := to_u64 (j * extent) in
        do d <- arr_get displacements i;
        let l := to_u64 (to_u64 (ts_lb temp2) + d + tmp_offset) in
        let u := to_u64 (to_u64 (ts_ub temp2) + d + tmp_offset) in
        let new_lb := if negb (ts_olb temp2 =? 0) && (l <? new_lb) then l else new_lb in
        let new_ub := if negb (ts_oub temp2 =? 0) && (u >? new_ub) then u else new_ub in
        do acc <- for_loop 0 (ts_count temp2) (fun k acc =>
                    do p <- arr_get (ts_pairs temp2) k;
                    if Z.of_nat (length acc) <? cap then
                      Ok (acc ++ [mkPair (to_s64 (to_u64 (tp_disp p) + (d + tmp_offset))) (tp_type p)])
                    else UB "heap overflow") acc;
        Ok (new_lb, new_ub, acc)) st)
  (new_lb, new_ub, []).

(** Fill the rest of the pairs allocated in type.c 311-312 with what malloc left there. *)
Definition pad_pairs (jk : tjunk) (cap : Z) (acc : list typepair) : list typepair :=
  acc ++ map (fun k => j_pair jk (Z.of_nat k)) (List.seq (length acc) (Z.to_nat cap - length acc)).

(** type.c 259-389: Type_struct.  sizeof(Typestruct) + (n-1)*sizeof(typepair) = 40 + (n+1)*16 bytes hold
    n+1 pairs; when that is less than the 40-byte header (n < -1) the stores to the header are undefined.
    Displacements are MPI_Aint, unsigned 64-bit. *)
Definition Type_struct (jk : tjunk) (count : Z) (blocklens : list Z) (displacements : list Z)
    (olds : list typestruct) : res typestruct :=
  do (new_lb, new_ub, ol, ou, n) <- struct_pass1 count blocklens displacements olds;
  let cap := n + 1 in
  if cap <? 0 then UB "heap overflow" else
  do (new_lb, new_ub, acc) <- struct_pass2 cap count blocklens displacements olds new_lb new_ub;
  let temp := mkTs n 0 0 0 (j_olb jk) (j_oub jk) (pad_pairs jk cap acc) in
  do lb <- (if ol : bool then Ok (to_s64 new_lb) else calc_lb temp);
  let o_lb := if ol : bool then 1 else j_olb jk in
  do ub <- (if ou : bool then Ok (to_s64 new_ub) else calc_ub temp);
  let o_ub := if ou : bool then 1 else j_oub jk in
  Ok (mkTs n ub lb 0 o_lb o_ub (ts_pairs temp)).

(** Declaring [T a[count]], as in type.c 430-432: undefined for a negative count (count 0 is accepted by gcc). *)
Definition vla (count : Z) : res unit := if count <? 0 then UB "negative array size" else Ok tt.

(** Filling an array of [count] elements in a for loop, as in type.c 438-443. *)
Definition tabulate {A} (count : Z) (f : Z -> A) : list A :=
  map (fun k => f (Z.of_nat k)) (List.seq 0 (Z.to_nat count)).

(** type.c 427-445: Type_contiguous. *)
Definition Type_contiguous (jk : tjunk) (count : Z) (old : typestruct) : res typestruct :=
  do _ <- vla count;
  do extent <- Type_extent old;
  Type_struct jk count (tabulate count (fun _ => 1)) (tabulate count (fun i => to_u64 (extent * i)))
    (tabulate count (fun _ => old)).

(** type.c 466-484: Type_hvector. *)
Definition Type_hvector (jk : tjunk) (count blocklen stride : Z) (old : typestruct) : res typestruct :=
  do _ <- vla count;
  do _ <- Type_extent old;
  Type_struct jk count (tabulate count (fun _ => blocklen)) (tabulate count (fun i => to_u64 (stride * i)))
    (tabulate count (fun _ => old)).

(** type.c 527-537: Type_vector. *)
Definition Type_vector (jk : tjunk) (count blocklen stride : Z) (old : typestruct) : res typestruct :=
  do extent <- Type_extent old;
  let bstride := to_u64 (to_u64 stride * extent) in
  Type_hvector jk count blocklen bstride old.

(** type.c 562-574: Type_hindexed. *)
Definition Type_hindexed (jk : tjunk) (count : Z) (blocklens displacements : list Z) (old : typestruct)
  : res typestruct :=
  do _ <- vla count;
  Type_struct jk count blocklens displacements (tabulate count (fun _ => old)).

(** type.c 598-612: Type_indexed. *)
Definition Type_indexed (jk : tjunk) (count : Z) (blocklens displacements : list Z) (old : typestruct)
  : res typestruct :=
  do _ <- vla count;
  do bdisps <- for_loop 0 count (fun i acc =>
                 do extent <- Type_extent old;
                 do d <- arr_get displacements i;
                 Ok (acc ++ [to_u64 (to_u64 d * extent)])) [];
  Type_hindexed jk count blocklens bdisps old.

(** type.c 635-645: Type_create_indexed_block. *)
Definition Type_create_indexed_block (jk : tjunk) (count blocklen : Z) (displacements : list Z)
    (old : typestruct) : res typestruct :=
  do _ <- vla count;
  Type_indexed jk count (tabulate count (fun _ => blocklen)) displacements old.

(** A store of [len] bytes at offset [off] into a heap object of [size] bytes, as in type.c 673-682. *)
Definition heap_store (size off len : Z) : res unit :=
  if (0 <=? off) && (off + len <=? size) then Ok tt else UB "heap overflow".

(** type.h 23-36, LP64 layout: count 0, ub 8, lb 16, committed 24, o_lb 28, o_ub 32, pairs 40 (16 bytes each). *)
(** type.c 668-685: Type_dup, with [size] bytes of storage; [count] is never copied, so it is what was there before. *)
Definition Type_dup_in (size : Z) (jk_count : Z) (old : typestruct) : res typestruct :=
  do _ <- heap_store size 24 4;
  do _ <- heap_store size 16 8;
  do _ <- heap_store size 8 8;
  do _ <- heap_store size 28 4;
  do _ <- heap_store size 32 4;
  do _ <- for_loop 0 (ts_count old) (fun i u =>
            do _ <- heap_store size (40 + 16 * i + 8) 4; heap_store size (40 + 16 * i) 8) tt;
  Ok (mkTs jk_count (ts_ub old) (ts_lb old) (ts_committed old) (ts_olb old) (ts_oub old) (ts_pairs old)).
(** type.c 672: it asks for sizeof(oldtype) = 8 bytes, the size of a pointer. *)
Definition Type_dup (jk_count : Z) (old : typestruct) : res typestruct := Type_dup_in 8 jk_count old.

(** type.c 690-699: Type_size. *)
Definition Type_size (t : typestruct) : res Z :=
  for_loop 0 (ts_count t) (fun i size =>
    do p <- arr_get (ts_pairs t) i;
    do len <- Simpletype_length (tp_type p);
    chk_int (size + len)) 0.

(** type.c 716-720: Type_lb (the result is an MPI_Aint, unsigned long). *)
Definition Type_lb (t : typestruct) : Z := to_u64 (ts_lb t).
(** type.c 738-742: Type_ub (the result is an MPI_Aint, unsigned long). *)
Definition Type_ub (t : typestruct) : Z := to_u64 (ts_ub t).

(** type.c 799-805: MPI_Type_commit on the structure. *)
Definition Type_commit (t : typestruct) : typestruct :=
  mkTs (ts_count t) (ts_ub t) (ts_lb t) 1 (ts_olb t) (ts_oub t) (ts_pairs t).

(** type_const.c 7-162: statically initialised types with one pair (the unset second pair is zero). *)
Definition pre1 (ub ty : Z) : typestruct := mkTs 1 ub 0 1 0 0 [mkPair 0 ty; mkPair 0 0].
(** type_const.c 7-162: statically initialised types with two pairs. *)
Definition pre2 (ub ty1 disp ty2 : Z) : typestruct := mkTs 2 ub 0 1 0 0 [mkPair 0 ty1; mkPair disp ty2].

(** type_const.c 171-184: simpletypes[]; entries 45..63 are NULL.  LP64 sizes and struct layout. *)
Definition simpletypes : list typestruct :=
  [ pre1 1 0; pre1 2 1; pre1 4 2; pre1 8 3;
    pre1 1 4; pre1 2 5; pre1 4 6; pre1 8 7;
    pre1 4 8; pre1 8 9; pre1 16 10; pre1 1 11;
    pre1 1 11; pre1 0 12; pre1 0 13; pre1 4 14;
    pre1 (fsize_real c) 15; pre1 (fsize_dprec c) 16; pre1 (2 * fsize_real c) 17; pre1 (2 * fsize_dprec c) 18;
    pre1 4 19; pre1 1 20; pre2 (2 * fsize_real c) 15 (fsize_real c) 15;
    pre2 (2 * fsize_dprec c) 16 (fsize_dprec c) 16;
    pre2 (2 * 4) 14 4 14; pre2 8 8 4 2; pre2 16 9 8 2; pre2 16 3 8 2;
    pre2 (2 * 4) 2 4 2; pre2 8 1 4 2; pre2 32 10 16 2; pre1 1 21;
    pre1 2 22; pre1 4 23; pre1 8 24; pre1 16 25;
    pre1 4 26; pre1 8 27; pre1 16 28; pre1 8 29;
    pre1 16 30; pre1 32 31; pre1 8 32; pre1 8 33;
    pre1 8 34 ].

(** type.c 33-39 for a negative handle, then the dereference every caller does:
    entry -1-handle of simpletypes[64]. *)
Definition predefined (handle : Z) : res typestruct :=
  let i := -1 - handle in
  if (i <? 0) || (64 <=? i) then UB "simpletypes index"
  else match nth_error simpletypes (Z.to_nat i) with
       | Some t => Ok t
       | None => UB "NULL datatype"
       end.

End TypeModel.
