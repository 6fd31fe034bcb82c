(** Model of the Fortran side: mpi_init_fort, the translation of the Fortran sentinels (mpi.c) and the bindings that use it.
    Fortran passes everything by reference; a binding dereferences and calls the C routine.  Bindings that pass their arguments
    through unchanged are [FPlain]. *)
From Verif Require Import Base ListModel HandleModel TypeModel CopyModel SysModel CollModel SysCalls.

Section FortModel.
Variable c : cfg.

(** mpi.c 33-156: mpi_init_fort.  [fv]: the constants from mpif.h as passed in, by name; [sz]: the distance in bytes of two
    consecutive variables of the Fortran type, by the name of its MPI constant; mpi.h 10-11, 17-18, 60, 154-163, 91-97, 102, 183-191, 233. *)
Definition verify_eq (fv : string -> Z) (name : string) (value : Z) (err : Z) : Z := if fv name =? value then err else 1.
(** mpi.c 112-118: verify_field.  offset is an int, the other side size_t. *)
Definition verify_field (fv : string -> Z) (name : string) (offset : Z) (err : Z) : res Z :=
  do d <- chk_int (fv name - 1);
  Ok (if to_u64 offset =? to_u64 (to_u64 d * 4) then err else 1).
(** mpi.c 97-103: verify_size. *)
Definition verify_size (fv sz : string -> Z) (name : string) (err : Z) : M Z :=
  let* t := get_type c (fv name) in
  let* p := pure (arr_get (ts_pairs (snd t)) 0) in
  let* n := pure (Simpletype_length c (tp_type p)) in
  ret (if to_s32 (sz name) =? n then err else 1).
(** mpi.c 29-156: mpi_init_fort. *)
Definition mpi_init_fort (fv sz : string -> Z) : M Z :=
  let* _ := MPI_Init in
  let err := 0 in
  let err := verify_eq fv "MPI_COMM_WORLD" 1 err in
  let err := verify_eq fv "MPI_ANY_SOURCE" (-1) err in
  let err := verify_eq fv "MPI_ANY_TAG" (-1) err in
  let err := verify_eq fv "MPI_PROC_NULL" (-2) err in
  let err := verify_eq fv "MPI_ROOT" (-3) err in
  let err := verify_eq fv "MPI_COMM_NULL" 0 err in
  let err := verify_eq fv "MPI_REQUEST_NULL" 0 err in
  let err := verify_eq fv "MPI_GROUP_NULL" 0 err in
  let err := verify_eq fv "MPI_GROUP_EMPTY" (-1) err in
  let err := verify_eq fv "MPI_UNDEFINED" (-1) err in
  let err := verify_eq fv "MPI_MAX_ERROR_STRING" 128 err in
  let err := verify_eq fv "MPI_MAX_PROCESSOR_NAME" 128 err in
  let err := verify_eq (fun n => to_u64 (fv n)) "MPI_STATUS_SIZE" 4 err in
  let* err := pure (verify_field fv "MPI_SOURCE" 0 err) in
  let* err := pure (verify_field fv "MPI_TAG" 4 err) in
  let* err := pure (verify_field fv "MPI_ERROR" 8 err) in
  let err := verify_eq fv "MPI_INTEGER" (-16) err in
  let* err := verify_size fv sz "MPI_INTEGER" err in
  let* err := verify_size fv sz "MPI_LOGICAL" err in
  (* verify_eq_warn(MPI_REAL): only prints *)
  let* err := verify_size fv sz "MPI_REAL" err in
  let err := verify_eq fv "MPI_DOUBLE_PRECISION" (-18) err in
  let* err := verify_size fv sz "MPI_DOUBLE_PRECISION" err in
  let* err := verify_size fv sz "MPI_COMPLEX" err in
  if negb (err =? 0) then pure (Abort "mpi_init_fort") else ret err.

(** mpi.c 12-14, 355-361: the addresses of the Fortran variables MPI_STATUS_IGNORE, MPI_STATUSES_IGNORE and MPI_IN_PLACE,
    saved by MPI_Init through mpi_get_fort_pointers (fort.F90 62-68). *)
Record fort := mkFort { f_status : Z; f_statuses : Z; f_in_place : Z }.
(** A Fortran status argument (mpi.c 365): its address, and what is there. *)
Definition fstatus : Type := (Z * status)%type.
(** A Fortran array of statuses (mpi.c 374): its address, and what is there. *)
Definition fstatuses : Type := (Z * list status)%type.
(** mpi.c 365-371: mpi_c_status. *)
Definition mpi_c_status (f : fort) (s : fstatus) : sarg := if fst s =? f_status f then SIgnore else SAt (snd s).
(** mpi.c 374-380: mpi_c_statuses. *)
Definition mpi_c_statuses (f : fort) (s : fstatuses) : sargs := if fst s =? f_statuses f then SSIgnore else SSAt (snd s).
(** mpi.c 383-389: mpi_c_in_place. *)
Definition mpi_c_in_place (f : fort) (buf : Z) : Z := if buf =? f_in_place f then MPI_IN_PLACE else buf.

(** Calls from Fortran: recv.c 115-119; send.c 224-229; req.c 12-15, 57-60, 85-89, 120-124, 152-156, 184-189, 220-224, 253-257;
    probe.c 12-15, 68-71; collective.c 12-488; all others are [FPlain]. *)
Inductive fcall :=
| FPlain (k : call)
| FRecv (buf count ty source tag comm : Z) (st : fstatus)
| FSendrecv (sbuf scount sty dest stag rbuf rcount rty source rtag comm : Z) (st : fstatus)
| FTest (req : Z) (st : fstatus) | FWait (req : Z) (st : fstatus)
| FTestany (count : Z) (reqs : list Z) (index : Z) (st : fstatus) | FWaitany (count : Z) (reqs : list Z) (index : Z) (st : fstatus)
| FTestall (count : Z) (reqs : list Z) (sts : fstatuses) | FWaitall (count : Z) (reqs : list Z) (sts : fstatuses)
| FTestsome (count : Z) (reqs indices : list Z) (sts : fstatuses) | FWaitsome (count : Z) (reqs indices : list Z) (sts : fstatuses)
| FIprobe (source tag comm : Z) (st : fstatus) | FProbe (source tag comm : Z) (st : fstatus)
| FColl (k : coll).

(** The bindings.  recv.c 115-119; send.c 224-229; req.c 12-15, 57-60, 120-124, 85-89, 152-156, 184-189, 220-224, 253-257;
    probe.c 12-15, 68-71. *)
Definition binding (f : fort) (k : fcall) : call :=
  match k with
  | FPlain k => k
  | FRecv b n t so g cm st => KRecv b n t so g cm (mpi_c_status f st)
  | FSendrecv sb sn sty d sg rb rn rt so rg cm st => KSendrecv sb sn sty d sg rb rn rt so rg cm (mpi_c_status f st)
  | FTest r st => KTest r (mpi_c_status f st)
  | FWait r st => KWait r (mpi_c_status f st)
  | FTestany n rs i st => KTestany n rs i (mpi_c_status f st)
  | FWaitany n rs i st => KWaitany n rs i (mpi_c_status f st)
  | FTestall n rs sts => KTestall n rs (mpi_c_statuses f sts)
  | FWaitall n rs sts => KWaitall n rs (mpi_c_statuses f sts)
  | FTestsome n rs ix sts => KTestsome n rs ix (mpi_c_statuses f sts)
  | FWaitsome n rs ix sts => KWaitsome n rs ix (mpi_c_statuses f sts)
  | FIprobe so g cm st => KIprobe so g cm (mpi_c_status f st)
  | FProbe so g cm st => KProbe so g cm (mpi_c_status f st)
  | FColl k => KColl
      (match k with
       (* collective.c 60-65, 99-104, 146-151, 177-182 *)
       | CGather sb sn st rb rn rt root => CGather (mpi_c_in_place f sb) sn st rb rn rt root
       | CGatherv sb sn st rb rns ds rt root => CGatherv (mpi_c_in_place f sb) sn st rb rns ds rt root
       | CAllgather sb sn st rb rn rt => CAllgather (mpi_c_in_place f sb) sn st rb rn rt
       | CAllgatherv sb sn st rb rns ds rt => CAllgatherv (mpi_c_in_place f sb) sn st rb rns ds rt
       (* collective.c 218-223, 256-261 *)
       | CScatter sb sn st rb rn rt root => CScatter sb sn st (mpi_c_in_place f rb) rn rt root
       | CScatterv sb sns ds st rb rn rt root => CScatterv sb sns ds st (mpi_c_in_place f rb) rn rt root
       (* collective.c 12-15, 29-32, 302-306, 333-338, 366-369, 387-391, 410-415, 436-443, 481-488: passed through *)
       | k => k
       end)
  end.
(** A call from Fortran: the binding (recv.c 115-119 and so on) calls the C routine. *)
Definition fexec (f : fort) (k : fcall) : M out := exec c (binding f k).

(** Reading [n] bytes through a pointer, little endian; 8 for the long of type.c 490. *)
Fixpoint load (n : nat) (m : mem) (a : Z) : res Z :=
  match n with
  | O => Ok 0
  | S k => match m a with
           | Some b => do r <- load k m (a + 1); Ok (b + 256 * r)
           | None => UB "read outside allocated memory"
           end
  end.
(** Writing 8 bytes through a pointer, little endian: *extent in type.c 200, 204. *)
Definition store8 (m : mem) (a v : Z) : res mem :=
  if allocated m a 8 then Ok (fun x => if (a <=? x) && (x <? a + 8) then Some (to_u64 v / 256 ^ (x - a) mod 256) else m x)
  else UB "write outside allocated memory".
(** A binding that writes its 8 byte result through the address of an argument, e.g. type.c 211-214. *)
Definition store_result (e : M Z) (a : Z) : M unit := let* v := e in fun s => do m <- store8 (s_mem s) a v; Ok (tt, set_mem s m).
(** pack.c 79-82: writes an MPI_Aint through the address of its result argument. *)
Definition mpi_pack_size (incount datatype comm size : Z) : M unit := store_result (MPI_Pack_size c incount datatype comm) size.
(** type.c 211-214; as above. *)
Definition mpi_type_extent (type extent : Z) : M unit := store_result (MPI_Type_extent c type) extent.
(** type.c 723-726; as above. *)
Definition mpi_type_lb (type lb : Z) : M unit := store_result (MPI_Type_lb c type) lb.
(** type.c 745-748; as above. *)
Definition mpi_type_ub (type ub : Z) : M unit := store_result (MPI_Type_ub c type) ub.
(** type.c 761-771: FGet_address and mpi_get_address, which write a long. *)
Definition mpi_get_address (loc address : Z) : M unit := store_result (ret loc) address.
(** type.c 779-784: mpi_address, which stores twice. *)
Definition mpi_address (loc address : Z) : M unit :=
  let* _ := store_result (ret loc) address in store_result (ret loc) address.
(** Bindings that read a long or an MPI_Aint through the address of an argument: type.c 489-492 and 507-510; 394-398; 579-583.
    The other arguments are given by value; blocklen is converted to int. *)
Definition mpi_type_hvector (count blocklen stride oldtype : Z) : M Z := fun s =>
  do b <- load 8 (s_mem s) blocklen;
  do d <- load 8 (s_mem s) stride;
  MPI_Type_create c (THvector count (to_s32 b) d oldtype) s.
(** type.c 507-510. *)
Definition mpi_type_create_hvector (count blocklen stride oldtype : Z) : M Z := mpi_type_hvector count blocklen stride oldtype.
(** An array of [n] MPI_Aint read through a pointer (type.c 394-398, 579-583). *)
Fixpoint loads (n : nat) (m : mem) (a : Z) : res (list Z) :=
  match n with O => Ok [] | S k => do x <- load 8 m a; do r <- loads k m (a + 8); Ok (x :: r) end.
(** type.c 394-398. *)
Definition mpi_type_struct (count : Z) (blocklens : list Z) (displacements : Z) (oldtypes : list Z) : M Z := fun s =>
  do ds <- loads (Z.to_nat count) (s_mem s) displacements;
  MPI_Type_create c (TStruct count blocklens ds oldtypes) s.
(** type.c 579-583. *)
Definition mpi_type_hindexed (count : Z) (blocklens : list Z) (displacements oldtype : Z) : M Z := fun s =>
  do ds <- loads (Z.to_nat count) (s_mem s) displacements;
  MPI_Type_create c (THindexed count blocklens ds oldtype) s.
End FortModel.
