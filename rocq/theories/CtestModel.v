(** tests/ctest.c, the test program that "make check" runs, built without TEST_INTERNAL; and tests/ctest_old.c.

    Local variables live in user memory at the addresses chosen here ([frame] and up, in the order of their declaration, apart from
    each other); each test function has the same frame, so it finds there what the function before it left.  Output other than the
    ">>>FAILED" lines is not modelled.  Numbers are little endian; == of two doubles or floats compares their bytes, which is the
    same for the numbers used here (none is a NaN or a zero of either sign compared with the other one). *)
From Verif Require Import Base ListModel HandleModel TypeModel CopyModel SysModel CollModel MiscModel.
Local Open Scope string_scope.

(** mpi.h 77. *)
Definition MPI_CHAR : Z := -1.
(** mpi.h 81. *)
Definition MPI_INT : Z := -3.
(** mpi.h 82. *)
Definition MPI_LONG : Z := -4.
(** mpi.h 87. *)
Definition MPI_FLOAT : Z := -9.
(** mpi.h 88. *)
Definition MPI_DOUBLE : Z := -10.
(** mpi.h 93. *)
Definition MPI_PACKED : Z := -13.
(** mpi.h 115. *)
Definition MPI_2INT : Z := -29.
(** mpi.h 218. *)
Definition MPI_MAX : Z := 0.

(** The [n] bytes of a number, little endian, as an initialiser such as ctest.c 24 stores them. *)
Fixpoint le_bytes (n : nat) (v : Z) : list Z := match n with O => [] | S n => v mod 256 :: le_bytes n (v / 256) end.
(** Storing bytes (ctest.c 24).  Undefined outside allocated memory. *)
Fixpoint poke_bytes (m : mem) (a : Z) (bs : list Z) : res mem :=
  match bs with
  | [] => Ok m
  | b :: r => match m a with Some _ => poke_bytes (upd m a (Some b)) (a + 1) r | None => UB "store outside memory" end
  end.
(** Storing one number of [n] bytes, e.g. a field (ctest.c 495-498). *)
Definition poke (n : nat) (a v : Z) : M unit := fun s => do m <- poke_bytes (s_mem s) a (le_bytes n v); Ok (tt, set_mem s m).
(** Storing an array of numbers of [n] bytes, e.g. ctest.c 24. *)
Fixpoint pokes (n : nat) (a : Z) (vs : list Z) : M unit :=
  match vs with [] => ret tt | v :: r => let* _ := poke n a v in pokes n (a + Z.of_nat n) r end.
(** Comparing [n] bytes (ctest.c 52).  Undefined outside allocated memory; so is reading what was never written, but memory always
    holds some bytes here. *)
Fixpoint same_bytes (m : mem) (a b : Z) (n : nat) : res bool :=
  match n with
  | O => Ok true
  | S n => match m a, m b with
           | Some x, Some y => do r <- same_bytes m (a + 1) (b + 1) n; Ok ((x =? y)%Z && r)
           | _, _ => UB "load outside memory"
           end
  end.
(** a[i]!=b[i] (ctest.c 52), inverted. *)
Definition same (n : nat) (a b : Z) : M bool := gets (fun s => same_bytes (s_mem s) a b n).
(** x && y (ctest.c 508). *)
Definition both (x y : M bool) : M bool := let* p := x in if p then y else ret false.
(** The loop of comparisons, e.g. ctest.c 51-52: all of a list in order. *)
Fixpoint all_of {A} (f : A -> M bool) (l : list A) : M bool := match l with [] => ret true | x :: r => both (f x) (all_of f r) end.
(** The end of a test, e.g. ctest.c 51-57: the message if some comparison fails. *)
Definition verdict (name : string) (e : M bool) : M (list string) := let* p := e in ret (if p then [] else [name]).

(** for loops that collect a result in every turn, e.g. the requests in ctest_old.c 51-60. *)
Fixpoint each {A} (f : Z -> M A) (l : list Z) : M (list A) :=
  match l with [] => ret [] | i :: r => let* x := f i in let* xs := each f r in ret (x :: xs) end.
(** for loops that hand a result on, e.g. position in ctest_old.c 134-138. *)
Fixpoint seq_of {A} (f : Z -> A -> M A) (l : list Z) (x : A) : M A := match l with [] => ret x | i :: r => let* x := f i x in seq_of f r x end.
(** The number in [n] bytes of memory, little endian (ctest_old.c 151). *)
Fixpoint from_bytes (m : mem) (a : Z) (n : nat) : res Z :=
  match n with
  | O => Ok 0
  | S n => match m a with Some x => do r <- from_bytes m (a + 1) n; Ok (x + 256 * r) | None => UB "load outside memory" end
  end.
(** An int in memory (ctest_old.c 151). *)
Definition peek4 (a : Z) : M Z := gets (fun s => do n <- from_bytes (s_mem s) a 4; Ok (to_s32 n)).

(** Where the variables of the functions (ctest.c 23-26 and so on) are; see above. *)
Definition frame : Z := 4096.

Section CtestModel.
Variable c : cfg.
Let create k := MPI_Type_create c k.
Let W : Z := MPI_COMM_WORLD.
Let send b n t := MPI_Isend c b n t 0 0 W.
Let recv b n t := MPI_Irecv c b n t 0 0 W.
(** int arrays: element i of the one at [a]. *)
Let at4 (a i : Z) : Z := a + 4 * i.
Let eq4 (a b i : Z) : M bool := same 4 (at4 a i) (at4 b i).

(** ctest.c 21-58: test_simple_contig; b is not initialised. *)
Definition test_simple_contig : M (list string) :=
  let a := frame in let b := frame + 20 in
  let* _ := pokes 4 a [1; 2; 3; 4; 5] in
  let* t := create (TContiguous 5 MPI_INT) in let* _ := MPI_Type_commit c t in
  let* _ := send a 1 t in let* _ := MPI_Irecv c b 1 t MPI_ANY_SOURCE MPI_ANY_TAG W in
  verdict "test_simple_contig" (all_of (eq4 a b) [0; 1; 2; 3; 4]).

(** ctest.c 62-100: test_simple_vector. *)
Definition test_simple_vector : M (list string) :=
  let a := frame in let b := frame + 40 in
  let* _ := pokes 4 a [1; 2; 3; 4; 5; 6; 7; 8; 9; 10] in let* _ := pokes 4 b [0; 0; 0; 0; 0; 0; 0; 0; 0; 0] in
  let* t := create (TVector 3 2 3 MPI_INT) in let* _ := MPI_Type_commit c t in
  let* _ := send a 1 t in let* _ := recv b 1 t in
  verdict "test_simple_vector" (all_of (eq4 a b) [0; 1; 3; 4; 6; 7]).

(** ctest.c 104-141: test_simple_hvector. *)
Definition test_simple_hvector : M (list string) :=
  let a := frame in let b := frame + 40 in
  let* _ := pokes 4 a [1; 2; 3; 4; 5; 6; 7; 8; 9; 10] in let* _ := pokes 4 b [0; 0; 0; 0; 0; 0; 0; 0; 0; 0] in
  let* t := create (THvector 3 2 (4 * 4) MPI_INT) in let* _ := MPI_Type_commit c t in
  let* _ := send a 1 t in let* _ := recv b 1 t in
  verdict "test_simple_hvector" (all_of (eq4 a b) [0; 1; 4; 5; 8; 9]).

(** ctest.c 145-186: test_simple_indexed. *)
Definition test_simple_indexed : M (list string) :=
  let a := frame in let b := frame + 60 in
  let* _ := pokes 4 a [1; 2; 3; 4; 5; 6; 7; 8; 9; 10; 11; 12; 13; 14; 15] in
  let* _ := pokes 4 b [0; 0; 0; 0; 0; 0; 0; 0; 0; 0; 0; 0; 0; 0; 0] in
  let* t := create (TIndexed 3 [2; 1; 3] [5; 0; 10] MPI_INT) in let* _ := MPI_Type_commit c t in
  let* _ := send a 1 t in let* _ := recv b 1 t in
  verdict "test_simple_indexed" (all_of (eq4 a b) [0; 5; 6; 10; 11; 12]).

(** ctest.c 191-229: test_simple_bindexed. *)
Definition test_simple_bindexed : M (list string) :=
  let a := frame in let b := frame + 40 in
  let* _ := pokes 4 a [1; 2; 3; 4; 5; 6; 7; 8; 9; 10] in let* _ := pokes 4 b [0; 0; 0; 0; 0; 0; 0; 0; 0; 0] in
  let* t := create (TIndexedBlock 3 2 [0; 4; 7] MPI_INT) in let* _ := MPI_Type_commit c t in
  let* _ := send a 1 t in let* _ := recv b 1 t in
  verdict "test_simple_bindexed" (all_of (eq4 a b) [0; 1; 4; 5; 7; 8]).

(** ctest.c 234-329: test_simple_bindexed2.  The routines return MPI_SUCCESS here (C74), so no error branch is taken.  The element
    sbuf[i / 2] is compared with rbuf[i] for odd i; for even i rbuf[i] must still be -1: it is compared with a constant kept at
    [minus1]. *)
Definition test_simple_bindexed2 (st : sarg) : M (list string) :=
  let sbuf := frame in let rbuf := frame + 32 in let minus1 := frame + 64 in
  let* _ := pokes 4 sbuf [0; 1; 2; 3; 4; 5; 6; 7] in
  let* _ := pokes 4 rbuf [-1; -1; -1; -1; -1; -1; -1; -1] in
  let* _ := pokes 4 minus1 [-1] in
  let* t := create (TIndexedBlock 4 1 [1; 3; 5; 7] MPI_INT) in let* _ := MPI_Type_commit c t in
  let* r := MPI_Irecv c rbuf 1 t 0 1 W in
  let* _ := MPI_Send c sbuf 4 MPI_INT 0 1 W in
  let* _ := MPI_Wait r st in
  verdict "test_simple_bindexed2" (all_of (fun i => if Z.rem i 2 =? 0 then same 4 (at4 rbuf i) minus1
                                                    else same 4 (at4 rbuf i) (at4 sbuf (Z.quot i 2))) [0; 1; 2; 3; 4; 5; 6; 7])%Z.

(** ctest.c 335-374: test_simple_hindexed. *)
Definition test_simple_hindexed : M (list string) :=
  let a := frame in let b := frame + 40 in
  let* _ := pokes 4 a [1; 2; 3; 4; 5; 6; 7; 8; 9; 10] in let* _ := pokes 4 b [0; 0; 0; 0; 0; 0; 0; 0; 0; 0] in
  let* t := create (THindexed 3 [2; 1; 3] [2 * 4; 0; 5 * 4] MPI_INT) in let* _ := MPI_Type_commit c t in
  let* _ := send a 1 t in let* _ := recv b 1 t in
  verdict "test_simple_hindexed" (all_of (eq4 a b) [0; 2; 3; 5; 6; 7]).

(** Comparing the fields of two structures: pairs of offset and size. *)
Let fields (fs : list (Z * nat)) (a b : Z) : M bool := all_of (fun f => same (snd f) (a + fst f) (b + fst f)) fs.

(** ctest.c 482-514: test_simple_struct; struct {int a; char b; char c; long d;} has its fields at 0, 4, 5 and 8. *)
Definition test_simple_struct : M (list string) :=
  let s1 := frame in let s2 := frame + 16 in
  let* t := create (TStruct 3 [1; 2; 1; 0] [0; 4; 8; 0] [MPI_INT; MPI_CHAR; MPI_LONG; 0]) in let* _ := MPI_Type_commit c t in
  let* _ := poke 4 s1 10 in let* _ := poke 1 (s1 + 4) 120 in let* _ := poke 1 (s1 + 5) 97 in let* _ := poke 8 (s1 + 8) 3000 in
  let* _ := send s1 1 t in let* _ := recv s2 1 t in
  verdict "test_simple_struct" (fields [(0, 4%nat); (4, 1%nat); (5, 1%nat); (8, 8%nat)] s1 s2).

(** ctest.c 519-579: test_complex_struct; st = {long a; long b; char c; int d; int e;} has its fields at 0, 8, 16, 20, 24 and size
    32; st2 = {st a; int b; char c;} has them at 0, 32 and 36 and size 40. *)
Definition test_complex_struct : M (list string) :=
  let s1 := frame in let s2 := frame + 32 in let s3 := frame + 64 in let s4 := frame + 104 in
  let* _ := pokes 8 s1 [100; 200] in let* _ := poke 1 (s1 + 16) 120 in let* _ := pokes 4 (s1 + 20) [45; 50] in
  let* _ := pokes 8 s3 [40; 100] in let* _ := poke 1 (s3 + 16) 120 in let* _ := pokes 4 (s3 + 20) [50; 20] in
  let* _ := poke 4 (s3 + 32) 100 in let* _ := poke 1 (s3 + 36) 103 in
  let* t := create (TStruct 3 [2; 2; 1] [0; 2 * 8 + 4; 2 * 8] [MPI_LONG; MPI_INT; MPI_CHAR]) in let* _ := MPI_Type_commit c t in
  let* _ := send s1 1 t in let* _ := recv s2 1 t in
  let* p := fields [(0, 8%nat); (8, 8%nat); (16, 1%nat); (20, 4%nat); (24, 4%nat)] s1 s2 in
  if negb p then ret ["test_complex_struct"] else
  let* t2 := create (TStruct 3 [1; 1; 1] [0; 32; 32 + 4] [t; MPI_INT; MPI_CHAR]) in let* _ := MPI_Type_commit c t2 in
  let* _ := send s3 1 t2 in let* _ := recv s4 1 t2 in
  verdict "test_complex_struct" (fields [(0, 8%nat); (8, 8%nat); (16, 1%nat); (32, 4%nat); (36, 1%nat)] s3 s4).

(** ctest.c 585-692: test_indexed_struct; {char a; long b; char c; int d; int e;} has its fields at 0, 8, 16, 20, 24 and size 32.
    The initialisation loop in two halves, one array after the other. *)
Let row (a n i : Z) : Z := a + n * i.
(** The initialisers of the structures {char, long, char, int, int} in ctest.c 585-692, one after the other. *)
Fixpoint fill (a : Z) (vs : list (Z * Z * Z * Z * Z)) : M unit :=
  match vs with
  | [] => ret tt
  | (x, y, z, v, w) :: r =>
      let* _ := poke 1 a x in let* _ := poke 8 (a + 8) y in let* _ := poke 1 (a + 16) z in let* _ := pokes 4 (a + 20) [v; w] in fill (a + 32) r
  end.
(** ctest.c 585-692: test_indexed_struct; see [fill]. *)
Definition test_indexed_struct : M (list string) :=
  let snd_ := frame in let rcv := frame + 320 in
  let idx := [0; 1; 2; 3; 4; 5; 6; 7; 8; 9] in
  let fs := [(0, 1%nat); (8, 8%nat); (16, 1%nat); (20, 4%nat); (24, 4%nat)] in
  let* _ := fill snd_ (map (fun i => (i, 2 * i, 65 + i, i, - i)) idx) in
  let* _ := fill rcv (map (fun i => (0, 0, 32, 0, 0)) idx) in
  let* t := create (TStruct 4 [1; 1; 1; 2] [0; 8; 16; 20] [MPI_CHAR; MPI_LONG; MPI_CHAR; MPI_INT]) in let* _ := MPI_Type_commit c t in
  let* ti := create (TIndexed 3 [3; 1; 2] [0; 5; 7] t) in let* _ := MPI_Type_commit c ti in
  let* _ := send snd_ 1 ti in let* _ := recv rcv 1 ti in
  let* p := all_of (fun i => fields fs (row snd_ 32 i) (row rcv 32 i)) [0; 1; 2; 5; 7; 8] in
  if negb p then ret ["test_indexed_struct"] else
  let* _ := MPI_coll c (CGather snd_ 1 ti rcv 6 t 0) in
  verdict "test_indexed_struct (multiple recv)"
    (all_of (fun ij => fields fs (row snd_ 32 (fst ij)) (row rcv 32 (snd ij))) [(0, 0); (1, 1); (2, 2); (5, 3); (7, 4); (8, 5)]).

(** ctest.c 699-738: test_multiple. *)
Definition test_multiple : M (list string) :=
  let a := frame in let b := frame + 20 in
  let* _ := pokes 4 a [1; 2; 3; 4; 5] in let* _ := pokes 4 b [0; 0; 0; 0; 0] in
  let* t := create (TContiguous 5 MPI_INT) in let* _ := MPI_Type_commit c t in
  let* _ := send a 5 MPI_INT in let* _ := recv b 1 t in
  verdict "test_multiple" (all_of (eq4 a b) [0; 1; 2; 3; 4]).

(** The initialisers of the structures {int a; double b; char c;} in ctest.c 754-758: fields at 0, 8, 16, size 24.  The
    doubles of 15, 16, 17, 18, 19 are given by their IEEE bits. *)
Fixpoint fill3 (a : Z) (vs : list (Z * Z * Z)) : M unit :=
  match vs with
  | [] => ret tt
  | (x, y, z) :: r => let* _ := poke 4 a x in let* _ := poke 8 (a + 8) y in let* _ := poke 1 (a + 16) z in fill3 (a + 24) r
  end.
(** ctest.c 740-780: test_multiple_struct; see [fill3]. *)
Definition test_multiple_struct : M (list string) :=
  let s1 := frame in let s2 := frame + 120 in
  let* _ := fill3 s1 [(0, 4624633867356078080, 97); (1, 4625196817309499392, 98); (2, 4625478292286210048, 99);
                      (3, 4625759767262920704, 100); (4, 4626041242239631360, 101)] in
  let* _ := fill3 s2 [(0, 0, 0); (0, 0, 0); (0, 0, 0); (0, 0, 0); (0, 0, 0)] in
  let* t := create (TStruct 3 [1; 1; 1] [0; 8; 16] [MPI_INT; MPI_DOUBLE; MPI_CHAR]) in let* _ := MPI_Type_commit c t in
  let* tc := create (TContiguous 5 t) in let* _ := MPI_Type_commit c tc in
  let* _ := send s1 1 tc in let* _ := recv s2 5 t in
  verdict "test_multiple_struct" (all_of (fun i => fields [(0, 4%nat); (8, 8%nat); (16, 1%nat)] (row s1 24 i) (row s2 24 i)) [0; 1; 2; 3; 4]).

(** ctest.c 785-821: test_packed.  SIZE is 77; c[76] = 0; k = 0.234234. *)
Definition test_packed : M (list string) :=
  let i := frame in let cc := frame + 4 in let j := frame + 120 in let k := frame + 128 in let l := frame + 136 in
  let d := frame + 144 in let buffer := frame + 224 in let rcv := frame + 336 in
  let* _ := poke 4 i 8 in
  let* _ := pokes 1 cc (text "abcdefghijklmnopqrstuvwxyabcdefghijklmnopqrstuvwxyabcdefghijklmnopqrstuvwxyabcdefghijklmnopqrstuvwxyzabcdefg" ++ [0; 0])%list in
  let* _ := poke 8 k 4597607189531475430 in
  let* _ := poke 1 (cc + 76) 0 in
  let* p := MPI_Pack c i 1 MPI_INT buffer 110 0 W in
  let* p := MPI_Pack c cc 77 MPI_CHAR buffer 110 p W in
  let* p := MPI_Pack c k 1 MPI_DOUBLE buffer 110 p W in
  let* _ := send buffer p MPI_PACKED in let* _ := recv rcv p MPI_PACKED in
  let* q := MPI_Unpack c rcv 110 0 j 1 MPI_INT W in
  let* q := MPI_Unpack c rcv 110 q d 77 MPI_CHAR W in
  let* _ := MPI_Unpack c rcv 110 q l 1 MPI_DOUBLE W in
  verdict "test_packed" (both (same 4 i j) (same 8 k l)).

(** ctest.c 825-877: test_packed_complex.  f is the float 0.345.  MPI_Unpack is given the communicator 0. *)
Definition test_packed_complex : M (list string) :=
  let s1 := frame in let s2 := frame + 16 in let x := frame + 32 in let y := frame + 36 in let f := frame + 40 in let g := frame + 44 in
  let buf := frame + 48 in let rbuf := frame + 148 in
  let* _ := poke 4 x 10 in let* _ := poke 4 f 1051763671 in
  let* t := create (TStruct 3 [1; 1; 1] [0; 4; 8] [MPI_INT; MPI_CHAR; MPI_LONG]) in
  let* _ := poke 4 s1 10 in let* _ := poke 1 (s1 + 4) 120 in let* _ := poke 1 (s1 + 5) 97 in let* _ := poke 8 (s1 + 8) 3000 in
  let* _ := MPI_Pack_size c 1 t W in
  let* p := MPI_Pack c x 1 MPI_INT buf 100 0 W in
  let* p := MPI_Pack c s1 1 t buf 100 p W in
  let* p := MPI_Pack c f 1 MPI_FLOAT buf 100 p W in
  let* _ := send buf p MPI_PACKED in let* _ := recv rbuf p MPI_PACKED in
  let* q := MPI_Unpack c rbuf 100 0 y 1 MPI_INT 0 in
  let* q := MPI_Unpack c rbuf 100 q s2 1 t 0 in
  let* _ := MPI_Unpack c rbuf 100 q g 1 MPI_FLOAT 0 in
  verdict "test_packed_complex" (both (fields [(0, 4%nat); (4, 1%nat); (8, 8%nat)] s1 s2) (both (same 4 x y) (same 4 f g))).

(** ctest.c 889-965: test_collectives; {int a; int b; double c; long d;} has its fields at 0, 4, 8 and 16.  [again] is the line that
    clears s2, the call and test_eq. *)
Definition test_collectives : M (list string) :=
  let s1 := frame in let s2 := frame + 24 in
  let clear := let* _ := pokes 4 s2 [0; 0] in pokes 8 (s2 + 8) [0; 0] in
  let test_eq op := verdict ("test_collectives: " ++ op) (fields [(0, 4%nat); (4, 4%nat); (8, 8%nat); (16, 8%nat)] s1 s2) in
  let again k op acc := let* _ := clear in let* _ := MPI_coll c k in let* f := test_eq op in ret (acc ++ f)%list in
  let* _ := pokes 4 s1 [1; 2] in let* _ := pokes 8 (s1 + 8) [4616189618054758400; 100] in let* _ := clear in
  let* t := create (TStruct 3 [2; 1; 1] [0; 8; 16] [MPI_INT; MPI_DOUBLE; MPI_LONG]) in let* _ := MPI_Type_commit c t in
  let* _ := MPI_coll c (CBcast s1 1 t 0) in
  let* _ := MPI_coll c (CGather s1 1 t s2 1 t 0) in
  let* e := test_eq "MPI_Gather" in
  let* e := again (CGatherv s1 1 t s2 [1] [0] t 0) "MPI_Gatherv" e in
  let* e := again (CAllgather s1 1 t s2 1 t) "MPI_Allgather" e in
  let* e := again (CAllgatherv s1 1 t s2 [1] [0] t) "MPI_Allgatherv" e in
  let* e := again (CScatter s1 1 t s2 1 t 0) "MPI_Scatter" e in
  let* e := again (CScatterv s1 [1] [0] t s2 1 t 0) "MPI_Scatterv" e in
  let* e := again (CReduce s1 s2 1 t MPI_MAX 0) "MPI_Reduce" e in
  let* e := again (CAllreduce s1 s2 1 t MPI_MAX) "MPI_Allreduce" e in
  let* e := again (CAlltoall s1 1 t s2 1 t) "MPI_Alltoall" e in
  let* e := again (CAlltoallv s1 [1] [0] t s2 [1] [0] t) "MPI_Alltoallv" e in
  let* e := again (CReduceScatter s1 s2 [1] t MPI_MAX) "MPI_Reduce_scatter" e in
  again (CScan s1 s2 1 t MPI_MAX) "MPI_Scan" e.

(** ctest.c 1024-1066: main.  Gives the ">>>FAILED" lines; errcount is their number.  MPI_Get_library_version (C69) changes no
    library state. *)
Definition ctest (st : sarg) : M (list string) :=
  let* _ := MPI_Init in
  let* e1 := test_simple_contig in let* e2 := test_simple_vector in let* e3 := test_simple_hvector in let* e4 := test_simple_indexed in
  let* e5 := test_simple_bindexed in let* e6 := test_simple_bindexed2 st in let* e7 := test_simple_hindexed in let* e8 := test_simple_struct in
  let* e9 := test_complex_struct in let* e10 := test_indexed_struct in let* e11 := test_multiple in let* e12 := test_multiple_struct in
  let* e13 := test_packed in let* e14 := test_packed_complex in let* e15 := test_collectives in
  let* _ := MPI_Finalize in
  ret (e1 ++ e2 ++ e3 ++ e4 ++ e5 ++ e6 ++ e7 ++ e8 ++ e9 ++ e10 ++ e11 ++ e12 ++ e13 ++ e14 ++ e15)%list.

(** ctest_old.c 9-178: main (not part of "make check").  [sts] is the array of 10 statuses as found.  Gives the messages that count as
    errors, the tags printed for the receives of either communicator, and the numbers printed after unpacking.  MPI_Wtime,
    MPI_Get_processor_name and MPI_Initialized change no library state. *)
Definition ctest_old (sts : list status) : M (list string * list Z * list Z * list Z) :=
  let sbuf := frame in let sbuf2 := frame + 40 in let rbuf := frame + 80 in let rbuf2 := frame + 120 in let temp := frame + 160 in
  let i5 := [0; 1; 2; 3; 4] in
  let tags x := match x with SSAt l => map st_tag (firstn 5 l) | _ => [] end in
  let* _ := MPI_Init in
  let* comm2 := MPI_Comm_create MPI_COMM_WORLD (MPI_Comm_group MPI_COMM_WORLD) in
  let* rreq := each (fun i => MPI_Irecv c (at4 rbuf (2 * i)) 1 MPI_2INT 0 (100 + i) W) i5 in
  let* sreq2 := each (fun i => let* _ := poke 4 (at4 sbuf2 i) (1000 + 10 * i) in MPI_Isend c (at4 sbuf2 i) 1 MPI_INT 0 (100 + i) comm2) i5 in
  let* sreq := each (fun i => let* _ := pokes 4 (at4 sbuf (2 * i)) [10 * i; 10 * i + 1] in
                              MPI_Isend c (at4 sbuf (2 * i)) 1 MPI_2INT 0 (100 + (4 - i)) W) i5 in
  let* e1 := each (fun i => verdict "COMWORLD send" (both (same 4 (at4 sbuf (9 - 2 * i)) (at4 rbuf (2 * i + 1))) (same 4 (at4 sbuf (8 - 2 * i)) (at4 rbuf (2 * i))))) i5 in
  let* (_, sts) := MPI_Waitall 5 sreq (SSAt sts) in
  let* (_, sts) := MPI_Waitall 5 rreq sts in
  let t1 := tags sts in
  let* re := each (fun i => let* r := MPI_Irecv c (at4 rbuf2 i) 1 MPI_INT 0 (100 + i) comm2 in
                            let* e := verdict "COM2 send" (same 4 (at4 rbuf2 i) (at4 sbuf2 i)) in ret (r, e)) i5 in
  let* (_, sts) := MPI_Waitall 5 sreq2 sts in
  let* (_, sts) := MPI_Waitall 5 (map fst re) sts in
  let t2 := tags sts in
  let* pos := seq_of (fun i pos => let* _ := poke 4 temp (100 + i) in MPI_Pack c temp 1 MPI_INT sbuf 20 pos W) i5 0 in
  let* _ := MPI_Isend c sbuf pos MPI_PACKED 0 0 W in
  let* r := MPI_Irecv c rbuf pos MPI_PACKED 0 0 W in
  let* (_, sts) := MPI_Waitall 1 [r] sts in
  let* (_, ns) := seq_of (fun i x => let* pos := MPI_Unpack c rbuf 20 (fst x) temp 1 MPI_INT W in let* n := peek4 temp in ret (pos, (snd x ++ [n])%list)) i5 (0, []) in
  let* e3 := each (fun i => verdict "pack/send/unpack" (eq4 sbuf rbuf i)) i5 in
  let* _ := MPI_Finalize in
  ret (concat e1 ++ concat (map snd re) ++ concat e3, t1, t2, ns)%list.
End CtestModel.
