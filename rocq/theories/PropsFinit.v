(** Property theorems about initialisation from Fortran as fort.F90 does it: C100. *)
From Verif Require Import Base HandleModel TypeModel TypeSpec CopyModel CopyEx SysModel CollModel SysCalls SysEx HeaderModel FortModel FortSpec FinitModel FinitSpec FinitFacts.

(** C100: the parameters of mpi_init_fort and the arguments of its only call correspond: every parameter f_X gets the constant X, which
    mpif.h gives its proper value; the status and the error variable are in their places. *)
Theorem C100_positions :
  length init_formals = length init_actuals /\ NoDup init_formals /\
  (forall n, In n (map fst compared) \/ In n measured -> bound init_formals init_actuals ("f_" ++ n)%string = Some (FConst n) /\ header_value n = shipped n) /\
  bound init_formals init_actuals "f_status"%string = Some (FWhole "status"%string) /\ bound init_formals init_actuals "ierror"%string = Some (FWhole "ierror"%string).
Proof. exact C100_positions_lemma. Qed.
Print Assumptions C100_positions.
(** Wherever the compiler puts the variables, MPI_INIT and MPI_INIT_THREAD succeed if the five types have the sizes the library is configured
    for, and then leave the state MPI_Init leaves; otherwise they abort.  The level provided is the one required. *)
Theorem C100_init :
  forall c base elem s s1, MPI_Init s = Ok (tt, s1) -> (forall a, is_int (elem a)) ->
    (usual c elem -> MPI_INIT_f c base elem s = Ok (0, s1) /\ forall req, MPI_INIT_THREAD_f c base elem req s = Ok (req, 0, s1)) /\
    (~ usual c elem -> exists m, MPI_INIT_f c base elem s = Abort m /\ forall req, MPI_INIT_THREAD_f c base elem req s = Abort m).
Proof. exact C100_init_lemma. Qed.
Print Assumptions C100_init.
(** The library then knows the three sentinel variables, wherever the common block is: each is taken for what it is and for nothing
    else, and no address outside the block is taken for a sentinel. *)
Theorem C100_sentinels :
  forall at_, let f := save_fort_pointers at_ in let addr := in_block at_ common_block in
    (forall x st, mpi_c_status f (x, st) = SIgnore <-> x = addr "MPI_STATUS_IGNORE"%string) /\
    (forall x st, mpi_c_statuses f (x, st) = SSIgnore <-> x = addr "MPI_STATUSES_IGNORE"%string) /\
    (mpi_c_in_place f (addr "MPI_IN_PLACE"%string) = MPI_IN_PLACE /\ forall x, x <> addr "MPI_IN_PLACE"%string -> mpi_c_in_place f x = x) /\
    (forall x, ~ at_ <= x < at_ + 36 -> (forall st, mpi_c_status f (x, st) = SAt st) /\ (forall st, mpi_c_statuses f (x, st) = SSAt st) /\ mpi_c_in_place f x = x) /\
    NoDup [addr "MPI_STATUS_IGNORE"%string; addr "MPI_STATUSES_IGNORE"%string; addr "MPI_IN_PLACE"%string].
Proof. exact C100_sentinels_lemma. Qed.
Print Assumptions C100_sentinels.
(** It knows them after the first initialisation, from C or Fortran, for the rest of the program; before it no variable is taken for one. *)
Theorem C100_known :
  forall at_ ks f, fort_after at_ ks f = if existsb (fun k => match k with KInit | KInitThread _ => true | _ => false end) ks then save_fort_pointers at_ else f.
Proof. exact C100_known_lemma. Qed.
Print Assumptions C100_known.
Theorem C100_before :
  forall x, x <> 0 -> (forall st, mpi_c_status no_fort (x, st) = SAt st) /\ (forall st, mpi_c_statuses no_fort (x, st) = SSAt st) /\ mpi_c_in_place no_fort x = x.
Proof. exact C100_before_lemma. Qed.
Print Assumptions C100_before.
(** A compiler with the usual sizes, one with REAL of 8 bytes, and one with INTEGER of 8 bytes; the block at 1000. *)
Definition sizes (i r : Z) (a : string) : Z :=
  if String.eqb a "fint" then i else if String.eqb a "flog" then i else if String.eqb a "freal" then r else if String.eqb a "fcomp" then 2 * r else 8.
Definition places (a : string) : Z := if String.eqb a "fint" then 5000 else if String.eqb a "fdub" then 4000 else 6000.
Example C100_ex :
  usual default_cfg (sizes 4 4) /\ ~ usual default_cfg (sizes 4 8) /\ ~ usual default_cfg (sizes 8 4) /\
  (do (r, _) <- MPI_INIT_f default_cfg places (sizes 4 4) ex_start; Ok r) = Ok 0 /\
  (do (r, _) <- MPI_INIT_THREAD_f default_cfg places (sizes 4 4) 3 ex_start; Ok r) = Ok (3, 0) /\
  MPI_INIT_f default_cfg places (sizes 4 8) ex_start = Abort "mpi_init_fort" /\
  MPI_INIT_f default_cfg places (sizes 8 4) ex_start = Abort "mpi_init_fort" /\
  fort_after 1000 [KInit; KFinalize] no_fort = mkFort 1000 1016 1032 /\
  mpi_c_in_place (fort_after 1000 [KInit; KFinalize] no_fort) 1032 = MPI_IN_PLACE /\ mpi_c_in_place (fort_after 1000 [] no_fort) 1032 = 1032.
Proof.
  split; [repeat split; vm_compute; reflexivity|]. split; [intros (_ & _ & H & _); vm_compute in H; discriminate|].
  split; [intros (H & _); vm_compute in H; discriminate|]. do 6 (split; [vm_compute; reflexivity|]). vm_compute. reflexivity.
Qed.
