(** Model of copy.c and pack.c: typed copies between user buffers.

    User memory maps addresses to bytes; [None] is not allocated.  Library storage is separate from it.
    Addresses are 64-bit numbers, pointer arithmetic is modulo 2^64. *)
From Verif Require Import Base TypeModel.

(** User memory, as the memcpy of copy.c 85 sees it. *)
Definition mem : Type := Z -> option Z.

(** Pointer plus byte offset, e.g. copy.c 85: char pointers as 64-bit numbers. *)
Definition padd (p off : Z) : Z := to_u64 (p + off).

(** Whether a byte of memory exists (for the memcpy of copy.c 85). *)
Definition is_some {A} (o : option A) : bool := match o with Some _ => true | None => false end.
(** [n] bytes from [a] on exist (for the memcpy of copy.c 85). *)
Definition allocated (m : mem) (a n : Z) : bool :=
  forallb (fun k => is_some (m (a + Z.of_nat k))) (List.seq 0 (Z.to_nat n)).

(** ISO C memcpy, called in copy.c 85, pack.c 54 and 143: both ranges must exist and must not overlap. *)
Definition memcpy (m : mem) (d s n : Z) : res mem :=
  if (0 <=? n) && allocated m s n && allocated m d n && ((d + n <=? s) || (s + n <=? d)) then
    Ok (fun a => if (d <=? a) && (a <? d + n) then m (s + (a - d)) else m a)
  else UB "memcpy".

(** C division of an int (truncating), as in copy.c 82-83; division by zero is undefined. *)
Definition cdiv (a b : Z) : res Z := if b =? 0 then UB "division by zero" else Ok (Z.quot a b).

Section Copy.
Variable c : cfg.

(** copy.c 42-88: Pcopy_data2.  Lines 61 and 70 multiply ints; lines 82-83 compute in unsigned long
    and truncate to int. *)
Definition Pcopy_data2 (m : mem) (source src_count : Z) (src_type : typestruct)
    (dest dest_count : Z) (dest_type : typestruct) : res mem :=
  if (ts_committed src_type =? 0) || (ts_committed dest_type =? 0) then Exit (-1) "Type not committed" else
  do sn <- chk_int (ts_count src_type * src_count);
  do dn <- chk_int (ts_count dest_type * dest_count);
  if sn <? dn then Exit 1 "copy_data: Trying to over-receive" else
  do src_extent <- Type_extent c src_type;
  do dest_extent <- Type_extent c dest_type;
  for_loop 0 dn (fun i m =>
    do si <- crem i (ts_count src_type);
    do sp <- arr_get (ts_pairs src_type) si;
    do di <- crem i (ts_count dest_type);
    do dp <- arr_get (ts_pairs dest_type) di;
    if type_checking c && negb (tp_type sp =? tp_type dp) then Exit 1 "copy_data: Types don't match." else
    do sq <- cdiv i (ts_count src_type);
    do dq <- cdiv i (ts_count dest_type);
    let soffset := to_s32 (to_u64 (tp_disp sp + sq * src_extent)) in
    let doffset := to_s32 (to_u64 (tp_disp dp + dq * dest_extent)) in
    do len <- Simpletype_length c (tp_type dp);
    memcpy m (padd dest doffset) (padd source soffset) len) m.

(** pack.c 38-60: Pack.  [position] is passed and returned by value; the variable is
    assumed not to lie inside the output buffer. *)
Definition Pack (m : mem) (inbuf incount : Z) (type : typestruct) (outbuf outsize position : Z)
  : res (mem * Z) :=
  do extent <- Type_extent c type;
  for_loop 0 incount (fun i st =>
    for_loop 0 (ts_count type) (fun j st =>
      let '(m, position) := st in
      do p <- arr_get (ts_pairs type) j;
      do len <- Simpletype_length c (tp_type p);
      do e <- chk_int (position + len);
      if e >? outsize then Exit 1 "MPI_Pack: data exceeds buffer size" else
      do m <- memcpy m (padd outbuf position) (padd inbuf (tp_disp p + extent * i)) len;
      Ok (m, e)) st) (m, position).

(** pack.c 62-75: Pack_size (the printf of the size is not modelled).  MPI_Aint is unsigned long. *)
Definition Pack_size (incount : Z) (type : typestruct) : res Z :=
  do size <- for_loop 0 (ts_count type) (fun i size =>
               do p <- arr_get (ts_pairs type) i;
               do len <- Simpletype_length c (tp_type p);
               Ok (to_u64 (size + len))) 0;
  Ok (to_u64 (size * to_u64 incount)).

(** pack.c 126-149: Unpack. *)
Definition Unpack (m : mem) (inbuf insize position : Z) (outbuf outcount : Z) (type : typestruct)
  : res (mem * Z) :=
  do extent <- Type_extent c type;
  for_loop 0 outcount (fun i st =>
    for_loop 0 (ts_count type) (fun j st =>
      let '(m, position) := st in
      do p <- arr_get (ts_pairs type) j;
      do len <- Simpletype_length c (tp_type p);
      do e <- chk_int (position + len);
      if e >? insize then Exit 1 "MPI_Unpack: Data exceeds buffer size" else
      do m <- memcpy m (padd outbuf (tp_disp p + extent * i)) (padd inbuf position) len;
      Ok (m, e)) st) (m, position).

End Copy.
