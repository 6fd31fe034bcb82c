(** C102: the test programs in tests/ run on the model. *)
From Verif Require Import Base ListModel HandleModel TypeModel CopyModel SysModel CollModel HeaderModel CtestModel FtestModel TestsFacts.
Local Open Scope string_scope.

(** The programs use the constants of the headers. *)
Theorem C102_constants :
  Forall (fun nv => In nv mpi_h)
    [("MPI_CHAR", MPI_CHAR); ("MPI_INT", MPI_INT); ("MPI_LONG", MPI_LONG); ("MPI_FLOAT", MPI_FLOAT); ("MPI_DOUBLE", MPI_DOUBLE);
     ("MPI_PACKED", MPI_PACKED); ("MPI_2INT", MPI_2INT); ("MPI_MAX", MPI_MAX)] /\
  Forall (fun nv => In nv mpif_h)
    [("MPI_INTEGER", MPI_INTEGER); ("MPI_REAL", MPI_REAL); ("MPI_DOUBLE_PRECISION", MPI_DOUBLE_PRECISION); ("MPI_COMPLEX", MPI_COMPLEX);
     ("MPI_DOUBLE_COMPLEX", MPI_DOUBLE_COMPLEX); ("MPI_LOGICAL", MPI_LOGICAL); ("MPI_CHARACTER", MPI_CHARACTER); ("MPI_PACKED", MPI_PACKED)].
Proof. split; repeat apply Forall_cons; try apply Forall_nil; vm_compute; tauto. Qed.
Print Assumptions C102_constants.

(** Both programs of "make check" report no error, for any contents of fresh storage, of uninitialised variables and of the rest of
    memory, with and without TYPE_CHECKING, and (ctest.c) any sizes of the Fortran types - provided the two override words of
    fresh datatype objects are 0.  Missing: other contents of these words, where it is false ([C102_make_check_refuted]). *)
Theorem C102_make_check_partial :
  forall (r d : Z) (tc : bool) (st : status) (hj : Z -> Z -> hitem obj) (lj : Z -> item slot) (rj : Z -> req_obj) (jp : Z -> Z -> typepair) (g : Z -> Z) (other : mem),
    report (ctest (mkCfg r d tc) (SAt st)) (at_start hj lj rj 0 0 jp g other) = Ok [] /\
    report (ftest (mkCfg 4 8 tc)) (at_start hj lj rj 0 0 jp g other) = Ok [].
Proof. exact (fun r d tc st hj lj rj jp g other => conj (C102_ctest_lemma r d tc st hj lj rj jp g other) (C102_ftest_lemma tc hj lj rj jp g other)). Qed.
Print Assumptions C102_make_check_partial.

(** With 1 in either word two tests of ctest.c fail, and with 1 in both ftest.F90 runs into signed overflow, whatever else is there. *)
Theorem C102_make_check_refuted :
  forall (r d : Z) (tc : bool) (st : status) (hj : Z -> Z -> hitem obj) (lj : Z -> item slot) (rj : Z -> req_obj) (jp : Z -> Z -> typepair) (g : Z -> Z) (other : mem),
    (report (ctest (mkCfg r d tc) (SAt st)) (at_start hj lj rj 1 0 jp g other) = Ok ["test_indexed_struct"; "test_multiple_struct"] /\
     report (ctest (mkCfg r d tc) (SAt st)) (at_start hj lj rj 0 1 jp g other) = Ok ["test_indexed_struct"; "test_multiple_struct"]) /\
    report (ftest (mkCfg 4 8 tc)) (at_start hj lj rj 1 1 jp g other) = UB "signed long overflow".
Proof. exact (fun r d tc st hj lj rj jp g other => conj (C102_ctest_bad_lemma r d tc st hj lj rj jp g other) (C102_ftest_bad_lemma tc hj lj rj jp g other)). Qed.
Print Assumptions C102_make_check_refuted.

(** The older programs, which use no derived datatypes, report no error whatever fresh storage holds: the receives on either
    communicator have the tags they were posted with, and the packed numbers come out again. *)
Theorem C102_old_programs :
  forall (r d : Z) (tc : bool) (hj : Z -> Z -> hitem obj) (lj : Z -> item slot) (rj : Z -> req_obj) (ol ou : Z) (jp : Z -> Z -> typepair) (g : Z -> Z) (other : mem)
         (s0 s1 s2 s3 s4 s5 s6 s7 s8 s9 : status),
    let sts := [s0; s1; s2; s3; s4; s5; s6; s7; s8; s9] in
    report (ctest_old (mkCfg r d tc) sts) (at_start hj lj rj ol ou jp g other) =
      Ok ([], [100; 101; 102; 103; 104], [100; 101; 102; 103; 104], [100; 101; 102; 103; 104]) /\
    report (ftest_old (mkCfg r d tc) sts) (at_start hj lj rj ol ou jp g other) =
      Ok ([], [(0, 101); (0, 102); (0, 103); (0, 104); (0, 105)], [(0, 1101); (0, 1102); (0, 1103); (0, 1104); (0, 1105)]).
Proof. exact C102_old_lemma. Qed.
Print Assumptions C102_old_programs.

(** The checks can fail: a receive buffer that does not get the data is reported. *)
Example C102_ex :
  report (let* _ := MPI_Init in let* _ := pokes 4 frame [1; 2] in let* _ := pokes 4 (frame + 8) [1; 3] in
          verdict "different" (all_of (fun i => same 4 (frame + 4 * i) (frame + 8 + 4 * i)) [0; 1]))
    (at_start (fun _ _ => mkHitem 77 (Some (5, 5)) ORaw) (fun _ => ListModel.mkItem (9, 9) (Some 3) None) (fun _ => mkReq None 1 2 3 4 5 6) 0 0 (fun _ _ => mkPair 0 0)
       (fun z => z) (fun _ => None)) = Ok ["different"].
Proof. vm_compute; reflexivity. Qed.
