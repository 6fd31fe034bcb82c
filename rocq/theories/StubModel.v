(** The calls that keep nothing (info.c, op.c, error.c) and the conversions between C and Fortran handles.  All handles and MPI_Fint are
    int (mpi.h 6, 7, 14, 69, 150, 200, 211, 243), so a handle is a number.  A call with an output argument gives (return code, value
    stored); where a handle is read and written the old value of the variable comes first. *)
From Verif Require Import Base SysModel SysCalls.

(** collective.c 510-513 and 519-522. *)
Definition MPI_Op_f2c (op : Z) : Z := op.
(** collective.c 519-522: MPI_Op_c2f. *)
Definition MPI_Op_c2f (op : Z) : Z := op.
(** comm.c 245-249 and 252-255. *)
Definition MPI_Comm_f2c (comm : Z) : Z := comm.
(** comm.c 252-255: MPI_Comm_c2f. *)
Definition MPI_Comm_c2f (comm : Z) : Z := comm.
(** group.c 258-261 and 267-270. *)
Definition MPI_Group_f2c (group : Z) : Z := group.
(** group.c 267-270: MPI_Group_c2f. *)
Definition MPI_Group_c2f (group : Z) : Z := group.
(** req.c 297-300 and 307-310. *)
Definition MPI_Request_f2c (request : Z) : Z := request.
(** req.c 307-310: MPI_Request_c2f. *)
Definition MPI_Request_c2f (request : Z) : Z := request.

(** op.c 14-18; the function and the flag are not looked at. *)
Definition MPI_Op_create (commute old : Z) : Z * Z := (0, 0).
(** op.c 26-29; the variable keeps its value. *)
Definition MPI_Op_free (old : Z) : Z * Z := (0, old).
(** info.c 17-22. *)
Definition MPI_Info_create (old : Z) : Z * Z := (0, 0).
(** info.c 35-39; the strings are not read. *)
Definition MPI_Info_set (info key value : Z) : Z := 0.
(** info.c 44-49. *)
Definition MPI_Info_free (old : Z) : Z * Z := (0, 0).
(** error.c 10-13; as a call on the state of the library, which it does not touch. *)
Definition MPI_Errhandler_set (comm handler : Z) : M Z := ret 0.
