(** Specification for C100: what the Fortran compiler must be like for MPI_INIT to succeed. *)
From Verif Require Import Base TypeModel.
(** [elem a]: bytes from one element of the array [a] (fort.F90 16-20) to the next; fint is of INTEGERs, flog of LOGICALs, freal of REALs,
    fdub of DOUBLE PRECISION, fcomp of COMPLEX. *)
Definition usual (c : cfg) (elem : string -> Z) : Prop :=
  elem "fint"%string = 4 /\ elem "flog"%string = 4 /\ elem "freal"%string = fsize_real c /\ elem "fdub"%string = fsize_dprec c /\ elem "fcomp"%string = 2 * fsize_real c.
