(** Model of the character string results of mpi.c.
    Simplification: a character buffer is the list of its bytes; reading or writing past its end is undefined behaviour. *)
From Coq Require Import Ascii.
From Verif Require Import Base.

(** The bytes of a C string literal, e.g. in mpi.c 254, without the final NUL. *)
Definition text (s : string) : list Z := map (fun a => Z.of_N (N_of_ascii a)) (list_ascii_of_string s).

(** Storing bytes at the front of a buffer: sprintf in mpi.c 254, gethostname in 276. *)
Fixpoint store (w buf : list Z) : res (list Z) :=
  match w, buf with
  | [], _ => Ok buf
  | x :: w, _ :: buf => do r <- store w buf; Ok (x :: r)
  | _ :: _, [] => UB "write past the end of a buffer"
  end.
(** strlen (C standard 7.24.6.3), mpi.c 255, 283. *)
Fixpoint strlen (buf : list Z) : res Z :=
  match buf with
  | [] => UB "strlen: no NUL"
  | x :: r => if x =? 0 then Ok 0 else do n <- strlen r; Ok (1 + n)
  end.
(** strncpy (C standard 7.24.2.4), mpi.c 279, 312. *)
Definition strncpy (buf src : list Z) (n : nat) : res (list Z) := store (firstn n (src ++ repeat 0 n)) buf.
(** memset (C standard 7.24.6.1), mpi.c 329; [from]: the offset in the buffer. *)
Definition memset (buf : list Z) (from : Z) (v n : Z) : res (list Z) :=
  do w <- store (repeat v (Z.to_nat n)) (skipn (Z.to_nat from) buf); Ok (firstn (Z.to_nat from) buf ++ w).
(** "%d" of sprintf in mpi.c 254: the digits of a number, most significant first; 10 digits are enough for an int. *)
Fixpoint digits (fuel : nat) (n : Z) : list Z :=
  match fuel with
  | O => []
  | S f => if n <? 10 then [48 + n] else digits f (n / 10) ++ [48 + n mod 10]
  end.
(** "%d" of sprintf in mpi.c 254: the sign and the digits. *)
Definition percent_d (n : Z) : list Z := if n <? 0 then 45 :: digits 10 (- n) else digits 10 n.

(** mpi.h 162. *)
Definition MPI_MAX_ERROR_STRING : Z := 128.
(** mpi.h 163. *)
Definition MPI_MAX_PROCESSOR_NAME : Z := 128.
(** mpi.h 4. *)
Definition MPI_MAX_LIBRARY_VERSION_STRING : Z := 80.

(** mpi.c 252-258: MPI_Error_string.  The caller's buffer and resultlen. *)
Definition MPI_Error_string (errorcode : Z) (string : list Z) : res (list Z * Z) :=
  do string <- store (text "MPI Error: code " ++ percent_d errorcode ++ [10] ++ [0]) string;
  do resultlen <- strlen string;
  Ok (string, resultlen).

(** What gethostname does (mpi.c 276): the return value and the bytes it stores at the front of the buffer. *)
Record hostname := mkHost { gh_ret : Z; gh_bytes : list Z }.
(** mpi.c 272-286: MPI_Get_processor_name. *)
Definition MPI_Get_processor_name (gh : hostname) (name : list Z) : res (list Z * Z) :=
  do name <- store (gh_bytes gh) name;
  do name <- (if negb (gh_ret gh =? 0) then strncpy name (text "unknown host name") (Z.to_nat MPI_MAX_PROCESSOR_NAME) else Ok name);
  do name <- arr_set name (MPI_MAX_PROCESSOR_NAME - 1) 0;
  do resultlen <- strlen name;
  Ok (name, resultlen).

(** mpi.c 16: mpi_version_string. *)
Definition mpi_version_string : list Z := text "mpi-serial 2.5.0".
(** mpi.c 309-318: MPI_Get_library_version. *)
Definition MPI_Get_library_version (version : list Z) : res (list Z * Z) :=
  do version <- strncpy version mpi_version_string (Z.to_nat MPI_MAX_LIBRARY_VERSION_STRING);
  do version <- arr_set version (MPI_MAX_LIBRARY_VERSION_STRING - 1) 0;
  do resultlen <- strlen version;
  Ok (version, resultlen).
(** mpi.c 321-332: the Fortran mpi_get_library_version. *)
Definition mpi_get_library_version (version : list Z) : res (list Z * Z) :=
  do (version, resultlen) <- MPI_Get_library_version version;
  if resultlen >? MPI_MAX_LIBRARY_VERSION_STRING - 1 then Abort "mpi_get_library_version" else
  do version <- memset version resultlen 32 (MPI_MAX_LIBRARY_VERSION_STRING - resultlen);
  Ok (version, resultlen).
(** mpi.c 243-249: the Fortran mpi_error_string. *)
Definition mpi_error_string (errorcode : Z) (string : list Z) : res (list Z * Z) := MPI_Error_string errorcode string.
(** mpi.c 264-269: the Fortran mpi_get_processor_name. *)
Definition mpi_get_processor_name (gh : hostname) (name : list Z) : res (list Z * Z) := MPI_Get_processor_name gh name.

(** mpi.c 336-352: MPI_Get_Version and the Fortran mpi_get_version. *)
Definition MPI_Get_Version : Z * Z := (1, 0).
