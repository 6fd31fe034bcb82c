(** What the world outside sees when the program ends. *)
From Verif Require Import Base.

(** The ways the library itself calls exit(): code and diagnostic. *)
Definition exits : list (Z * string) :=
  [ (-1, "Type not committed"); (1, "copy_data: Trying to over-receive"); (1, "copy_data: Types don't match.");
    (1, "MPI_Pack: data exceeds buffer size"); (1, "MPI_Unpack: Data exceeds buffer size"); (1, "Invalid simple type") ]%string.
(** POSIX: the parent process gets the low eight bits of the argument of exit(); 0 means success. *)
Definition status_seen (code : Z) : Z := code mod 256.
