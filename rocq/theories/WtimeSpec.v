(** What a good MPI_Wtime result is. *)
From Coq Require Import Floats.SpecFloat.
From Verif Require Import Base.

(** The double [t] is less than half a microsecond away from [us] microseconds. *)
Definition nearest_microsecond (t : spec_float) (us : Z) : Prop :=
  match t with
  | S754_zero _ => us = 0
  | S754_finite s m e => e <= 0 /\ 2 * Z.abs (1000000 * (if s then - Zpos m else Zpos m) - us * 2 ^ (- e)) < 2 ^ (- e)
  | _ => False
  end.
