(** tests/ftest.F90, the Fortran program that "make check" runs, built without TEST_INTERNAL; and tests/ftest_old.F90.

    Each call is the C routine its binding calls with the arguments it passes (C70, C80).  The variables of all subroutines are at
    [frame] and up, and DATA takes effect at the call: every subroutine runs once.  Elements are counted from 0 here.  REAL has 4 and
    DOUBLE PRECISION 8 bytes. *)
From Verif Require Import Base ListModel HandleModel TypeModel CopyModel SysModel CollModel MiscModel CtestModel.
Local Open Scope string_scope.

(** mpif.h 183. *)
Definition MPI_INTEGER : Z := -16.
(** mpif.h 186. *)
Definition MPI_REAL : Z := -17.
(** mpif.h 189. *)
Definition MPI_DOUBLE_PRECISION : Z := -18.
(** mpif.h 192. *)
Definition MPI_COMPLEX : Z := -19.
(** mpif.h 195. *)
Definition MPI_DOUBLE_COMPLEX : Z := -20.
(** mpif.h 198. *)
Definition MPI_LOGICAL : Z := -21.
(** mpif.h 201. *)
Definition MPI_CHARACTER : Z := -22.

(** The IEEE bits of a small number >= 0 (below 2^24) in double precision, e.g. for the data of ftest.F90 173-211. *)
Definition double_bits (n : Z) : Z := if (n =? 0)%Z then 0 else (1023 + Z.log2 n) * 2 ^ 52 + (n - 2 ^ Z.log2 n) * 2 ^ (52 - Z.log2 n).
(** The IEEE bits of a small number >= 0 (below 2^24) in single precision, e.g. for the data of ftest.F90 371-429. *)
Definition real_bits (n : Z) : Z := if (n =? 0)%Z then 0 else (127 + Z.log2 n) * 2 ^ 23 + (n - 2 ^ Z.log2 n) * 2 ^ (23 - Z.log2 n).
(** lo, lo+1, ..., n of them, e.g. the data of ftest.F90 60. *)
Definition upto (lo : Z) (n : nat) : list Z := map (fun k => lo + Z.of_nat k) (List.seq 0 n).
(** Complex numbers with imaginary part 0, e.g. the data of ftest.F90 173-211. *)
Definition complexes (bits : Z -> Z) (ns : list Z) : list Z := flat_map (fun n => [bits n; 0]) ns.

Section FtestModel.
Variable c : cfg.
Let create k := MPI_Type_create c k.
Let W : Z := MPI_COMM_WORLD.
Let isend b n t := MPI_Isend c b n t 0 0 W.
Let irecv_any b n t := MPI_Irecv c b n t MPI_ANY_SOURCE MPI_ANY_TAG W.
Let at_ (n : nat) (a i : Z) : Z := a + Z.of_nat n * i.
Let eqs (n : nat) (a b : Z) (l : list Z) : M bool := all_of (fun i => same n (at_ n a i) (at_ n b i)) l.

(** ftest.F90 52-84: test_contiguous. *)
Definition f_contiguous : M (list string) :=
  let a := frame in let b := frame + 20 in
  let* _ := pokes 4 a (upto 1 5) in let* _ := pokes 4 b (repeat 0 5) in
  let* t := create (TContiguous 5 MPI_INTEGER) in let* _ := MPI_Type_commit c t in
  let* _ := isend a 1 t in let* _ := irecv_any b 1 t in
  verdict "mpi_type_contiguous" (eqs 4 a b [0; 1; 2; 3; 4]).
(** ftest.F90 91-123: test_vector. *)
Definition f_vector : M (list string) :=
  let a := frame in let b := frame + 40 in
  let* _ := pokes 4 a (upto 1 10) in let* _ := pokes 4 b (repeat 0 10) in
  let* t := create (TVector 3 2 3 MPI_INTEGER) in let* _ := MPI_Type_commit c t in
  let* _ := isend a 1 t in let* _ := irecv_any b 1 t in
  verdict "mpi_type_vector" (eqs 4 a b [0; 1; 3; 4; 6; 7]).
(** ftest.F90 132-167: test_simple_hvector. *)
Definition f_hvector : M (list string) :=
  let a := frame in let b := frame + 40 in
  let* _ := pokes 4 a (upto 1 10) in let* _ := pokes 4 b (repeat 0 10) in
  let* extent := MPI_Type_extent c MPI_INTEGER in
  let* t := create (THvector 3 2 (4 * extent) MPI_INTEGER) in let* _ := MPI_Type_commit c t in
  let* _ := isend a 1 t in let* _ := irecv_any b 1 t in
  verdict "test_simple_hvector" (eqs 4 a b [0; 1; 4; 5; 8; 9]).
(** ftest.F90 173-211: test_simple_indexed; double complex. *)
Definition f_indexed : M (list string) :=
  let a := frame in let b := frame + 240 in
  let* _ := pokes 8 a (complexes double_bits (upto 1 15)) in let* _ := pokes 8 b (repeat 0 30) in
  let* t := create (TIndexed 3 [2; 1; 3] [5; 0; 10] MPI_DOUBLE_COMPLEX) in let* _ := MPI_Type_commit c t in
  let* _ := isend a 1 t in let* _ := irecv_any b 1 t in
  verdict "test_simple_indexed" (eqs 16 a b [0; 5; 6; 10; 11; 12]).
(** ftest.F90 217-262: test_simple_bindexed; the elements not sent must still be 0: they are compared with the constant at [zero]. *)
Definition f_bindexed : M (list string) :=
  let a := frame in let b := frame + 40 in let zero := frame + 80 in
  let* _ := pokes 4 a (upto 1 10) in let* _ := pokes 4 b (repeat 0 10) in let* _ := poke 4 zero 0 in
  let* t := create (TIndexedBlock 3 2 [0; 4; 7] MPI_INTEGER) in let* _ := MPI_Type_commit c t in
  let* _ := isend a 1 t in let* _ := irecv_any b 1 t in
  verdict "test_simple_bindexed" (both (eqs 4 a b [0; 1; 4; 5; 7; 8]) (all_of (fun i => same 4 (at_ 4 b i) zero) [2; 3; 6; 9])).
(** ftest.F90 268-313: test_simple_bindexed2; mpi_send is given one argument too many, so its ierr is req. *)
Definition f_bindexed2 : M (list string) :=
  let a := frame in let b := frame + 32 in let minus1 := frame + 64 in
  let* _ := pokes 4 a (upto 1 8) in let* _ := pokes 4 b (repeat (-1) 8) in let* _ := poke 4 minus1 (-1) in
  let* t := create (TIndexedBlock 4 1 [1; 3; 5; 7] MPI_INTEGER) in let* _ := MPI_Type_commit c t in
  let* _ := irecv_any b 1 t in let* _ := MPI_Send c a 4 MPI_INTEGER 0 0 W in
  verdict "test_simple_bindexed2" (all_of (fun i => if Z.rem i 2 =? 0 then same 4 (at_ 4 b i) minus1
                                                    else same 4 (at_ 4 b i) (at_ 4 a (Z.quot (i + 1) 2 - 1))) (upto 0 8))%Z.
(** ftest.F90 321-369: test_simple_hindexed; the displacements are differences of MPI_ADDRESS (C72). *)
Definition f_hindexed : M (list string) :=
  let a := frame in let b := frame + 40 in
  let* _ := pokes 4 a (upto 1 10) in let* _ := pokes 4 b (repeat 0 10) in
  let* t := create (THindexed 3 [2; 1; 3] [at_ 4 a 2 - a; 0; at_ 4 a 5 - a] MPI_INTEGER) in let* _ := MPI_Type_commit c t in
  let* _ := isend a 1 t in let* _ := irecv_any b 1 t in
  verdict "test_simple_hindexed" (eqs 4 a b [0; 2; 3; 5; 6; 7]).
(** ftest.F90 371-429: test_complex_indexed; goes on after a failure. *)
Definition f_complex_indexed : M (list string) :=
  let a := frame in let b := frame + 576 in
  let* _ := pokes 8 a (map double_bits (upto 1 72)) in let* _ := pokes 8 b (repeat 0 72) in
  let* t := create (TIndexed 3 [3; 1; 4] [0; 5; 8] MPI_DOUBLE_PRECISION) in let* _ := MPI_Type_commit c t in
  let* tc := create (TIndexed 2 [1; 2] [1; 4] t) in let* _ := MPI_Type_commit c tc in
  let* _ := isend a 1 tc in let* _ := irecv_any b 1 tc in
  let* e := each (fun i => verdict "test_complex_indexed" (eqs 8 a b [i])) (flat_map (fun i => map (fun j => j - 1 + 12 * i) [1; 2; 3; 6; 9; 10; 11; 12]) [1; 4; 5]) in
  let* _ := MPI_Type_free c tc in let* _ := MPI_Type_free c t in
  ret (concat e).
(** ftest.F90 436-488: test_packed; f = 14.333, c = (100, 20), a = "xyzab". *)
Definition f_packed : M (list string) :=
  let x := frame in let y := frame + 4 in let f := frame + 8 in let g := frame + 12 in let cc := frame + 16 in let d := frame + 24 in
  let a := frame + 32 in let b := frame + 37 in let buf := frame + 48 in let rbuf := frame + 148 in
  let* _ := poke 4 x 10 in let* _ := poke 4 f 1097159672 in let* _ := pokes 4 cc [real_bits 100; real_bits 20] in let* _ := pokes 1 a (text "xyzab") in
  let* p := MPI_Pack c x 1 MPI_INTEGER buf 100 0 0 in
  let* p := MPI_Pack c f 1 MPI_REAL buf 100 p 0 in
  let* p := MPI_Pack c cc 1 MPI_COMPLEX buf 100 p 0 in
  let* p := MPI_Pack c a 5 MPI_CHARACTER buf 100 p 0 in
  let* _ := isend buf p MPI_PACKED in let* _ := irecv_any rbuf p MPI_PACKED in
  let* q := MPI_Unpack c rbuf 100 0 y 1 MPI_INTEGER 0 in
  let* q := MPI_Unpack c rbuf 100 q g 1 MPI_REAL 0 in
  let* q := MPI_Unpack c rbuf 100 q d 1 MPI_COMPLEX 0 in
  let* _ := MPI_Unpack c rbuf 100 q b 5 MPI_CHARACTER 0 in
  verdict "mpi_pack" (both (same 4 x y) (both (same 4 f g) (both (same 8 cc d) (same 5 a b)))).
(** ftest.F90 490-521: test_multiple. *)
Definition f_multiple : M (list string) :=
  let a := frame in let b := frame + 80 in
  let* _ := pokes 4 a (complexes real_bits (upto 1 10)) in let* _ := pokes 4 b (repeat 0 20) in
  let* t := create (TContiguous 10 MPI_COMPLEX) in let* _ := MPI_Type_commit c t in
  let* _ := isend a 1 t in let* _ := irecv_any b 10 MPI_COMPLEX in
  verdict "test_multiple" (eqs 8 a b (upto 0 10)).
(** ftest.F90 526-574: test_multiple_indexed; goes on after a failure. *)
Definition f_multiple_indexed : M (list string) :=
  let a := frame in let b := frame + 600 in
  let* _ := pokes 4 a (complexes real_bits (upto 1 75)) in let* _ := pokes 4 b (repeat 0 150) in
  let* t := create (TIndexed 3 [1; 2; 3] [0; 5; 10] MPI_COMPLEX) in let* _ := MPI_Type_commit c t in
  let* tc := create (TContiguous 5 t) in let* _ := MPI_Type_commit c tc in
  let* _ := isend a 1 tc in let* _ := irecv_any b 5 t in
  let* e := each (fun i => verdict "test_multiple_indexed" (eqs 8 a b [i])) (flat_map (fun i => map (fun j => j - 1 + 13 * i) [1; 6; 7; 11; 12; 13]) [0; 1; 2; 3; 4]) in
  ret (concat e).
(** ftest.F90 576-743: test_collectives; goes on after a failure.  b is not cleared between mpi_allgather and mpi_allgatherv. *)
Definition f_collectives : M (list string) :=
  let a := frame in let b := frame + 40 in
  let clear := pokes 4 b (repeat 0 10) in
  let test op := let* e := each (fun i => verdict (op ++ " failed") (eqs 4 a b [i])) [0; 1; 2; 3; 5; 6; 8] in ret (concat e) in
  let do_ k op acc := let* _ := MPI_coll c k in let* f := test op in ret (acc ++ f)%list in
  let again k op acc := let* _ := clear in do_ k op acc in
  let* _ := pokes 4 a (upto 1 10) in let* _ := clear in
  let* t := create (TIndexed 3 [4; 2; 1] [0; 5; 8] MPI_LOGICAL) in let* _ := MPI_Type_commit c t in
  let* _ := MPI_coll c (CBcast a 1 t 0) in
  let* e := do_ (CGather a 1 t b 1 t 0) "mpi_gather" [] in
  let* e := again (CGatherv a 1 t b [1] [0] t 0) "mpi_gatherv" e in
  let* e := again (CAllgather a 1 t b 1 t) "mpi_allgather" e in
  let* e := do_ (CAllgatherv a 1 t b [1] [0] t) "mpi_allgatherv" e in
  let* e := again (CScatter a 1 t b 1 t 0) "mpi_scatter" e in
  let* e := again (CScatterv a [1] [0] t b 1 t 0) "mpi_scatterv" e in
  let* e := again (CReduce a b 1 t MPI_MAX 0) "mpi_reduce" e in
  let* e := again (CAllreduce a b 1 t MPI_MAX) "mpi_allreduce" e in
  let* e := again (CAlltoall a 1 t b 1 t) "mpi_alltoall" e in
  let* e := again (CAlltoallv a [1] [0] t b [1] [0] t) "mpi_alltoallv" e in
  let* e := again (CReduceScatter a b [1] t MPI_MAX) "mpi_reduce_scatter" e in
  again (CScan a b 1 t MPI_MAX) "mpi_scan" e.
(** ftest.F90 749-772: test_mpi_version; MPI_VERSION and MPI_SUBVERSION are those of mpif.h 342, 344. *)
Definition f_version : list string :=
  ((if (fst MPI_Get_Version =? 1)%Z then [] else ["MPI_VERSION mismatch"]) ++ (if (snd MPI_Get_Version =? 0)%Z then [] else ["MPI_SUBVERSION mismatch"]))%list.

(** ftest.F90 5-44: the program.  Gives one message for every time ec is increased.  mpi_init is C100. *)
Definition ftest : M (list string) :=
  let* _ := MPI_Init in
  let* e1 := f_contiguous in let* e2 := f_vector in let* e3 := f_hvector in let* e4 := f_indexed in let* e5 := f_bindexed in
  let* e6 := f_bindexed2 in let* e7 := f_hindexed in let* e8 := f_complex_indexed in let* e9 := f_packed in let* e10 := f_multiple in
  let* e11 := f_multiple_indexed in let* e12 := f_collectives in
  let* _ := MPI_Finalize in
  ret (e1 ++ e2 ++ e3 ++ e4 ++ e5 ++ e6 ++ e7 ++ e8 ++ e9 ++ e10 ++ e11 ++ e12 ++ f_version)%list.

(** ftest_old.F90 40-107: from mpi_init to the second set of statuses (not part of "make check").  Gives the errors, and for the
    receives on either communicator the sources and tags printed.  The program goes on to call mpi_unpack without its last argument
    (126-127), which is undefined. *)
Definition ftest_old (sts : list status) : M (list string * list (Z * Z) * list (Z * Z)) :=
  let sbuf := frame in let sbuf2 := frame + 40 in let rbuf := frame + 80 in let rbuf2 := frame + 120 in
  let i5 := [1; 2; 3; 4; 5] in
  let at1 a i := at_ 4 a (i - 1) in
  let tags x := match x with SSAt l => map (fun s => (st_source s, st_tag s)) (firstn 5 l) | _ => [] end in
  let* _ := MPI_Init in
  let* comm2 := MPI_Comm_dup MPI_COMM_WORLD in
  let* rreq := each (fun i => MPI_Irecv c (at1 rbuf i) 1 MPI_INTEGER 0 (100 + i) W) i5 in
  let* rreq2 := each (fun i => MPI_Irecv c (at1 rbuf2 i) 1 MPI_INTEGER MPI_ANY_SOURCE MPI_ANY_TAG comm2) i5 in
  let* sreq := each (fun i => let* _ := poke 4 (at1 sbuf i) (10 * i) in MPI_Isend c (at1 sbuf i) 1 MPI_INTEGER 0 (100 + i) W) i5 in
  let* sreq2 := each (fun i => let* _ := poke 4 (at1 sbuf2 i) (1000 + 10 * i) in MPI_Isend c (at1 sbuf2 i) 1 MPI_INTEGER 0 (1100 + i) comm2) i5 in
  let* e1 := each (fun i => verdict "error on Send2" (same 4 (at1 sbuf i) (at1 rbuf i))) i5 in
  let* e2 := each (fun i => verdict "error on Send2" (same 4 (at1 sbuf2 i) (at1 rbuf2 i))) i5 in
  let* (_, sts) := MPI_Waitall 5 sreq (SSAt sts) in
  let* (_, sts) := MPI_Waitall 5 rreq sts in
  let t1 := tags sts in
  let* (_, sts) := MPI_Waitall 5 sreq2 sts in
  let* (_, sts) := MPI_Waitall 5 rreq2 sts in
  ret (concat e1 ++ concat e2, t1, tags sts)%list.
End FtestModel.
