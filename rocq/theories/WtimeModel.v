(** Model of time.c.  Doubles are IEEE-754 binary64 with rounding to nearest, ties to even, as defined by Coq's SpecFloat. *)
From Coq Require Import Floats.SpecFloat.
From Verif Require Import Base.

(** The conversion (double) of an integer in time.c 31. *)
Definition to_double (z : Z) : spec_float := binary_normalize 53 1024 z 0 false.
(** time.c 22-33: MPI_Wtime.  [tv]: what gettimeofday stores, seconds and microseconds, or None if it fails. *)
Definition MPI_Wtime (tv : option (Z * Z)) : res spec_float :=
  match tv with
  | None => Abort "MPI_Wtime: error calling gettimeofday()"
  | Some (tv_sec, tv_usec) => Ok (SFadd 53 1024 (to_double tv_sec) (SFdiv 53 1024 (to_double tv_usec) (to_double 1000000)))
  end.
