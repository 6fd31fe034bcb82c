(** Model of all Fortran bindings as text: the parameters, the C routine called and the expression passed for each of its parameters.
    Left out: mpi_init_fort and mpi_save_fort_pointers ([FortModel]) and mpi_wtime, which has no arguments; what
    mpi_get_library_version ([MiscModel]) and mpi_address ([FortModel]) do besides the call; casts of pointers. *)
From Verif Require Import Base CopyModel CollModel FortModel.
#[local] Open Scope string_scope.

(** C types after typedefs (mpi.h 6-7, 14, 66, 69, 183-191, 200, 211, 213, 243): int; long; MPI_Aint, an unsigned long; void;
    char; MPI_Status; MPI_User_function.  A parameter is passed by value or is a pointer. *)
Inductive kind := Kint | Klong | Kaint | Kvoid | Kchar | Kstatus | Kfun.
(** Parameters: int *comm is a pointer (mpi.c 224), int errorcode is passed by value (mpi.c 232). *)
Inductive prm := Val (k : kind) | Ptr (k : kind).
(** Expressions passed: *x (mpi.c 226); x (mpi.c 247); mpi_c_status(x) (req.c 13); mpi_c_statuses(x) (req.c 154);
    mpi_c_in_place(x) (collective.c 61). *)
Inductive arg := Deref (x : string) | Same (x : string) | CStatus (x : string) | CStatuses (x : string) | CInPlace (x : string).
(** One binding, e.g. mpi.c 224-228: names for compilers with lower and upper case symbols, parameters, routine called,
    arguments, parameter that gets the return code. *)
Record bind_text := mkB { b_lower : string; b_upper : string; b_params : list (string * prm); b_callee : string; b_args : list arg; b_ierr : string }.

(** The parameters of the routines called; each line cites its own (cart.c 22 to type.c 814). *)
Definition prototypes : list (string * list prm) := [
  ("MPI_Cart_create", [Val Kint; Val Kint; Ptr Kint; Ptr Kint; Val Kint; Ptr Kint]) (* cart.c 22 *);
  ("MPI_Cart_get", [Val Kint; Val Kint; Ptr Kint; Ptr Kint; Ptr Kint]) (* cart.c 59 *);
  ("MPI_Cart_coords", [Val Kint; Val Kint; Val Kint; Ptr Kint]) (* cart.c 88 *);
  ("MPI_Dims_create", [Val Kint; Val Kint; Ptr Kint]) (* cart.c 120 *);
  ("MPI_Barrier", [Val Kint]) (* collective.c 19 *);
  ("MPI_Bcast", [Ptr Kvoid; Val Kint; Val Kint; Val Kint; Val Kint]) (* collective.c 38 *);
  ("MPI_Gather", [Ptr Kvoid; Val Kint; Val Kint; Ptr Kvoid; Val Kint; Val Kint; Val Kint; Val Kint]) (* collective.c 71 *);
  ("MPI_Gatherv", [Ptr Kvoid; Val Kint; Val Kint; Ptr Kvoid; Ptr Kint; Ptr Kint; Val Kint; Val Kint; Val Kint]) (* collective.c 110 *);
  ("MPI_Allgather", [Ptr Kvoid; Val Kint; Val Kint; Ptr Kvoid; Val Kint; Val Kint; Val Kint]) (* collective.c 157 *);
  ("MPI_Allgatherv", [Ptr Kvoid; Val Kint; Val Kint; Ptr Kvoid; Ptr Kint; Ptr Kint; Val Kint; Val Kint]) (* collective.c 188 *);
  ("MPI_Scatter", [Ptr Kvoid; Val Kint; Val Kint; Ptr Kvoid; Val Kint; Val Kint; Val Kint; Val Kint]) (* collective.c 228 *);
  ("MPI_Scatterv", [Ptr Kvoid; Ptr Kint; Ptr Kint; Val Kint; Ptr Kvoid; Val Kint; Val Kint; Val Kint; Val Kint]) (* collective.c 268 *);
  ("MPI_Reduce", [Ptr Kvoid; Ptr Kvoid; Val Kint; Val Kint; Val Kint; Val Kint; Val Kint]) (* collective.c 313 *);
  ("MPI_Allreduce", [Ptr Kvoid; Ptr Kvoid; Val Kint; Val Kint; Val Kint; Val Kint]) (* collective.c 343 *);
  ("MPI_Reduce_scatter", [Ptr Kvoid; Ptr Kvoid; Ptr Kint; Val Kint; Val Kint; Val Kint]) (* collective.c 374 *);
  ("MPI_Scan", [Ptr Kvoid; Ptr Kvoid; Val Kint; Val Kint; Val Kint; Val Kint]) (* collective.c 397 *);
  ("MPI_Alltoall", [Ptr Kvoid; Val Kint; Val Kint; Ptr Kvoid; Val Kint; Val Kint; Val Kint]) (* collective.c 421 *);
  ("MPI_Alltoallv", [Ptr Kvoid; Ptr Kint; Ptr Kint; Val Kint; Ptr Kvoid; Ptr Kint; Ptr Kint; Val Kint; Val Kint]) (* collective.c 451 *);
  ("MPI_Alltoallw", [Ptr Kvoid; Ptr Kint; Ptr Kint; Ptr Kint; Ptr Kvoid; Ptr Kint; Ptr Kint; Ptr Kint; Val Kint]) (* collective.c 497 *);
  ("MPI_Comm_free", [Ptr Kint]) (* comm.c 51 *);
  ("MPI_Comm_size", [Val Kint; Ptr Kint]) (* comm.c 94 *);
  ("MPI_Comm_rank", [Val Kint; Ptr Kint]) (* comm.c 112 *);
  ("MPI_Comm_dup", [Val Kint; Ptr Kint]) (* comm.c 133 *);
  ("MPI_Comm_create", [Val Kint; Val Kint; Ptr Kint]) (* comm.c 158 *);
  ("MPI_Comm_split", [Val Kint; Val Kint; Val Kint; Ptr Kint]) (* comm.c 183 *);
  ("MPI_Comm_group", [Val Kint; Ptr Kint]) (* comm.c 206 *);
  ("MPI_Intercomm_create", [Val Kint; Val Kint; Val Kint; Val Kint; Val Kint; Ptr Kint]) (* comm.c 232 *);
  ("MPI_Get_count", [Ptr Kstatus; Val Kint; Ptr Kint]) (* getcount.c 20 *);
  ("MPI_Get_elements", [Ptr Kstatus; Val Kint; Ptr Kint]) (* getcount.c 38 *);
  ("MPI_Group_incl", [Val Kint; Val Kint; Ptr Kint; Ptr Kint]) (* group.c 17 *);
  ("MPI_Group_range_incl", [Val Kint; Val Kint; Ptr Kint; Ptr Kint]) (* group.c 60 *);
  ("MPI_Group_union", [Val Kint; Val Kint; Ptr Kint]) (* group.c 99 *);
  ("MPI_Group_intersection", [Val Kint; Val Kint; Ptr Kint]) (* group.c 131 *);
  ("MPI_Group_difference", [Val Kint; Val Kint; Ptr Kint]) (* group.c 164 *);
  ("MPI_Group_free", [Ptr Kint]) (* group.c 193 *);
  ("MPI_Group_translate_ranks", [Val Kint; Val Kint; Ptr Kint; Val Kint; Ptr Kint]) (* group.c 216 *);
  ("MPI_Info_create", [Ptr Kint]) (* info.c 18 *);
  ("MPI_Info_set", [Val Kint; Ptr Kchar; Ptr Kchar]) (* info.c 36 *);
  ("MPI_Info_free", [Ptr Kint]) (* info.c 45 *);
  ("MPI_Finalize", []) (* mpi.c 212 *);
  ("MPI_Abort", [Val Kint; Val Kint]) (* mpi.c 233 *);
  ("MPI_Error_string", [Val Kint; Ptr Kchar; Ptr Kint]) (* mpi.c 253 *);
  ("MPI_Get_processor_name", [Ptr Kchar; Ptr Kint]) (* mpi.c 273 *);
  ("MPI_Initialized", [Ptr Kint]) (* mpi.c 300 *);
  ("MPI_Get_library_version", [Ptr Kchar; Ptr Kint]) (* mpi.c 310 *);
  ("MPI_Get_Version", [Ptr Kint; Ptr Kint]) (* mpi.c 337 *);
  ("MPI_Op_create", [Ptr Kfun; Val Kint; Ptr Kint]) (* op.c 15 *);
  ("MPI_Op_free", [Ptr Kint]) (* op.c 27 *);
  ("MPI_Pack", [Ptr Kvoid; Val Kint; Val Kint; Ptr Kvoid; Val Kint; Ptr Kint; Val Kint]) (* pack.c 25 *);
  ("MPI_Pack_size", [Val Kint; Val Kint; Val Kint; Ptr Kaint]) (* pack.c 86 *);
  ("MPI_Unpack", [Ptr Kvoid; Val Kint; Ptr Kint; Ptr Kvoid; Val Kint; Val Kint; Val Kint]) (* pack.c 116 *);
  ("MPI_Iprobe", [Val Kint; Val Kint; Val Kint; Ptr Kint; Ptr Kstatus]) (* probe.c 24 *);
  ("MPI_Probe", [Val Kint; Val Kint; Val Kint; Ptr Kstatus]) (* probe.c 76 *);
  ("MPI_Irecv", [Ptr Kvoid; Val Kint; Val Kint; Val Kint; Val Kint; Val Kint; Ptr Kint]) (* recv.c 43 *);
  ("MPI_Recv", [Ptr Kvoid; Val Kint; Val Kint; Val Kint; Val Kint; Val Kint; Ptr Kstatus]) (* recv.c 125 *);
  ("MPI_Test", [Ptr Kint; Ptr Kint; Ptr Kstatus]) (* req.c 20 *);
  ("MPI_Wait", [Ptr Kint; Ptr Kstatus]) (* req.c 65 *);
  ("MPI_Waitany", [Val Kint; Ptr Kint; Ptr Kint; Ptr Kstatus]) (* req.c 95 *);
  ("MPI_Testany", [Val Kint; Ptr Kint; Ptr Kint; Ptr Kint; Ptr Kstatus]) (* req.c 128 *);
  ("MPI_Testall", [Val Kint; Ptr Kint; Ptr Kint; Ptr Kstatus]) (* req.c 160 *);
  ("MPI_Waitall", [Val Kint; Ptr Kint; Ptr Kstatus]) (* req.c 195 *);
  ("MPI_Testsome", [Val Kint; Ptr Kint; Ptr Kint; Ptr Kint; Ptr Kstatus]) (* req.c 228 *);
  ("MPI_Waitsome", [Val Kint; Ptr Kint; Ptr Kint; Ptr Kint; Ptr Kstatus]) (* req.c 261 *);
  ("MPI_Request_free", [Ptr Kint]) (* req.c 286 *);
  ("MPI_Isend", [Ptr Kvoid; Val Kint; Val Kint; Val Kint; Val Kint; Val Kint; Ptr Kint]) (* send.c 38 *);
  ("MPI_Send", [Ptr Kvoid; Val Kint; Val Kint; Val Kint; Val Kint; Val Kint]) (* send.c 112 *);
  ("MPI_Irsend", [Ptr Kvoid; Val Kint; Val Kint; Val Kint; Val Kint; Val Kint; Ptr Kint]) (* send.c 190 *);
  ("MPI_Sendrecv", [Ptr Kvoid; Val Kint; Val Kint; Val Kint; Val Kint; Ptr Kvoid; Val Kint; Val Kint; Val Kint; Val Kint; Val Kint; Ptr Kstatus]) (* send.c 238 *);
  ("MPI_Type_extent", [Val Kint; Ptr Kaint]) (* type.c 217 *);
  ("MPI_Type_struct", [Val Kint; Ptr Kint; Ptr Kaint; Ptr Kint; Ptr Kint]) (* type.c 405 *);
  ("MPI_Type_contiguous", [Val Kint; Val Kint; Ptr Kint]) (* type.c 455 *);
  ("MPI_Type_hvector", [Val Kint; Val Kint; Val Kaint; Val Kint; Ptr Kint]) (* type.c 496 *);
  ("MPI_Type_create_hvector", [Val Kint; Val Kint; Val Kaint; Val Kint; Ptr Kint]) (* type.c 514 *);
  ("MPI_Type_vector", [Val Kint; Val Kint; Val Kint; Val Kint; Ptr Kint]) (* type.c 550 *);
  ("MPI_Type_hindexed", [Val Kint; Ptr Kint; Ptr Kaint; Val Kint; Ptr Kint]) (* type.c 587 *);
  ("MPI_Type_indexed", [Val Kint; Ptr Kint; Ptr Kint; Val Kint; Ptr Kint]) (* type.c 625 *);
  ("MPI_Type_create_indexed_block", [Val Kint; Val Kint; Ptr Kint; Val Kint; Ptr Kint]) (* type.c 658 *);
  ("MPI_Type_size", [Val Kint; Ptr Kint]) (* type.c 708 *);
  ("MPI_Type_lb", [Val Kint; Ptr Kaint]) (* type.c 729 *);
  ("MPI_Type_ub", [Val Kint; Ptr Kaint]) (* type.c 751 *);
  ("FGet_address", [Ptr Kvoid; Ptr Klong]) (* type.c 762 *);
  ("MPI_Type_commit", [Ptr Kint]) (* type.c 800 *);
  ("MPI_Type_free", [Ptr Kint]) (* type.c 815 *);
  ("print_typemap", [Val Kint]) (* type.c 837 *)
].

(** The bindings; each line cites its own (cart.c 12 to type.c 810). *)
Definition bindings : list bind_text := [
  mkB "mpi_cart_create" "MPI_CART_CREATE" [("comm_old", Ptr Kint); ("ndims", Ptr Kint); ("dims", Ptr Kint); ("periods", Ptr Kint); ("reorder", Ptr Kint); ("comm_cart", Ptr Kint); ("ierr", Ptr Kint)] "MPI_Cart_create" [Deref "comm_old"; Deref "ndims"; Same "dims"; Same "periods"; Deref "reorder"; Same "comm_cart"] "ierr" (* cart.c 13-17 *);
  mkB "mpi_cart_get" "MPI_CART_GET" [("comm", Ptr Kint); ("maxdims", Ptr Kint); ("dims", Ptr Kint); ("periods", Ptr Kint); ("coords", Ptr Kint); ("ierr", Ptr Kint)] "MPI_Cart_get" [Deref "comm"; Deref "maxdims"; Same "dims"; Same "periods"; Same "coords"] "ierr" (* cart.c 51-54 *);
  mkB "mpi_cart_coords" "MPI_CART_COORDS" [("comm", Ptr Kint); ("rank", Ptr Kint); ("maxdims", Ptr Kint); ("coords", Ptr Kint); ("ierr", Ptr Kint)] "MPI_Cart_coords" [Deref "comm"; Deref "rank"; Deref "maxdims"; Same "coords"] "ierr" (* cart.c 81-84 *);
  mkB "mpi_dims_create" "MPI_DIMS_CREATE" [("nnodes", Ptr Kint); ("ndims", Ptr Kint); ("dims", Ptr Kint); ("ierr", Ptr Kint)] "MPI_Dims_create" [Deref "nnodes"; Deref "ndims"; Same "dims"] "ierr" (* cart.c 113-116 *);
  mkB "mpi_barrier" "MPI_BARRIER" [("comm", Ptr Kint); ("ierror", Ptr Kint)] "MPI_Barrier" [Deref "comm"] "ierror" (* collective.c 12-15 *);
  mkB "mpi_bcast" "MPI_BCAST" [("buffer", Ptr Kvoid); ("count", Ptr Kint); ("datatype", Ptr Kint); ("root", Ptr Kint); ("comm", Ptr Kint); ("ierror", Ptr Kint)] "MPI_Bcast" [Same "buffer"; Deref "count"; Deref "datatype"; Deref "root"; Deref "comm"] "ierror" (* collective.c 29-32 *);
  mkB "mpi_gather" "MPI_GATHER" [("sendbuf", Ptr Kvoid); ("sendcount", Ptr Kint); ("sendtype", Ptr Kint); ("recvbuf", Ptr Kvoid); ("recvcount", Ptr Kint); ("recvtype", Ptr Kint); ("root", Ptr Kint); ("comm", Ptr Kint); ("ierror", Ptr Kint)] "MPI_Gather" [CInPlace "sendbuf"; Deref "sendcount"; Deref "sendtype"; Same "recvbuf"; Deref "recvcount"; Deref "recvtype"; Deref "root"; Deref "comm"] "ierror" (* collective.c 60-65 *);
  mkB "mpi_gatherv" "MPI_GATHERV" [("sendbuf", Ptr Kvoid); ("sendcount", Ptr Kint); ("sendtype", Ptr Kint); ("recvbuf", Ptr Kvoid); ("recvcounts", Ptr Kint); ("displs", Ptr Kint); ("recvtype", Ptr Kint); ("root", Ptr Kint); ("comm", Ptr Kint); ("ierror", Ptr Kint)] "MPI_Gatherv" [CInPlace "sendbuf"; Deref "sendcount"; Deref "sendtype"; Same "recvbuf"; Same "recvcounts"; Same "displs"; Deref "recvtype"; Deref "root"; Deref "comm"] "ierror" (* collective.c 99-104 *);
  mkB "mpi_allgather" "MPI_ALLGATHER" [("sendbuf", Ptr Kvoid); ("sendcount", Ptr Kint); ("sendtype", Ptr Kint); ("recvbuf", Ptr Kvoid); ("recvcount", Ptr Kint); ("recvtype", Ptr Kint); ("comm", Ptr Kint); ("ierror", Ptr Kint)] "MPI_Allgather" [CInPlace "sendbuf"; Deref "sendcount"; Deref "sendtype"; Same "recvbuf"; Deref "recvcount"; Deref "recvtype"; Deref "comm"] "ierror" (* collective.c 146-151 *);
  mkB "mpi_allgatherv" "MPI_ALLGATHERV" [("sendbuf", Ptr Kvoid); ("sendcount", Ptr Kint); ("sendtype", Ptr Kint); ("recvbuf", Ptr Kvoid); ("recvcounts", Ptr Kint); ("displs", Ptr Kint); ("recvtype", Ptr Kint); ("comm", Ptr Kint); ("ierror", Ptr Kint)] "MPI_Allgatherv" [CInPlace "sendbuf"; Deref "sendcount"; Deref "sendtype"; Same "recvbuf"; Same "recvcounts"; Same "displs"; Deref "recvtype"; Deref "comm"] "ierror" (* collective.c 177-182 *);
  mkB "mpi_scatter" "MPI_SCATTER" [("sendbuf", Ptr Kvoid); ("sendcount", Ptr Kint); ("sendtype", Ptr Kint); ("recvbuf", Ptr Kvoid); ("recvcount", Ptr Kint); ("recvtype", Ptr Kint); ("root", Ptr Kint); ("comm", Ptr Kint); ("ierror", Ptr Kint)] "MPI_Scatter" [Same "sendbuf"; Deref "sendcount"; Deref "sendtype"; CInPlace "recvbuf"; Deref "recvcount"; Deref "recvtype"; Deref "root"; Deref "comm"] "ierror" (* collective.c 218-223 *);
  mkB "mpi_scatterv" "MPI_SCATTERV" [("sendbuf", Ptr Kvoid); ("sendcounts", Ptr Kint); ("displs", Ptr Kint); ("sendtype", Ptr Kint); ("recvbuf", Ptr Kvoid); ("recvcount", Ptr Kint); ("recvtype", Ptr Kint); ("root", Ptr Kint); ("comm", Ptr Kint); ("ierror", Ptr Kint)] "MPI_Scatterv" [Same "sendbuf"; Same "sendcounts"; Same "displs"; Deref "sendtype"; CInPlace "recvbuf"; Deref "recvcount"; Deref "recvtype"; Deref "root"; Deref "comm"] "ierror" (* collective.c 256-261 *);
  mkB "mpi_reduce" "MPI_REDUCE" [("sendbuf", Ptr Kvoid); ("recvbuf", Ptr Kvoid); ("count", Ptr Kint); ("datatype", Ptr Kint); ("op", Ptr Kint); ("root", Ptr Kint); ("comm", Ptr Kint); ("ierror", Ptr Kint)] "MPI_Reduce" [Same "sendbuf"; Same "recvbuf"; Deref "count"; Deref "datatype"; Deref "op"; Deref "root"; Deref "comm"] "ierror" (* collective.c 302-306 *);
  mkB "mpi_allreduce" "MPI_ALLREDUCE" [("sendbuf", Ptr Kvoid); ("recvbuf", Ptr Kvoid); ("count", Ptr Kint); ("datatype", Ptr Kint); ("op", Ptr Kint); ("comm", Ptr Kint); ("ierror", Ptr Kint)] "MPI_Allreduce" [Same "sendbuf"; Same "recvbuf"; Deref "count"; Deref "datatype"; Deref "op"; Deref "comm"] "ierror" (* collective.c 333-338 *);
  mkB "mpi_reduce_scatter" "MPI_REDUCE_SCATTER" [("sendbuf", Ptr Kvoid); ("recvbuf", Ptr Kvoid); ("recvcounts", Ptr Kint); ("datatype", Ptr Kint); ("op", Ptr Kint); ("comm", Ptr Kint); ("ierr", Ptr Kint)] "MPI_Reduce_scatter" [Same "sendbuf"; Same "recvbuf"; Same "recvcounts"; Deref "datatype"; Deref "op"; Deref "comm"] "ierr" (* collective.c 366-369 *);
  mkB "mpi_scan" "MPI_SCAN" [("sendbuf", Ptr Kvoid); ("recvbuf", Ptr Kvoid); ("count", Ptr Kint); ("datatype", Ptr Kint); ("op", Ptr Kint); ("comm", Ptr Kint); ("ierror", Ptr Kint)] "MPI_Scan" [Same "sendbuf"; Same "recvbuf"; Deref "count"; Deref "datatype"; Deref "op"; Deref "comm"] "ierror" (* collective.c 387-391 *);
  mkB "mpi_alltoall" "MPI_ALLTOALL" [("sendbuf", Ptr Kvoid); ("sendcount", Ptr Kint); ("sendtype", Ptr Kint); ("recvbuf", Ptr Kvoid); ("recvcount", Ptr Kint); ("recvtype", Ptr Kint); ("comm", Ptr Kint); ("ierror", Ptr Kint)] "MPI_Alltoall" [Same "sendbuf"; Deref "sendcount"; Deref "sendtype"; Same "recvbuf"; Deref "recvcount"; Deref "recvtype"; Deref "comm"] "ierror" (* collective.c 410-415 *);
  mkB "mpi_alltoallv" "MPI_ALLTOALLV" [("sendbuf", Ptr Kvoid); ("sendcounts", Ptr Kint); ("sdispls", Ptr Kint); ("sendtype", Ptr Kint); ("recvbuf", Ptr Kvoid); ("recvcounts", Ptr Kint); ("rdispls", Ptr Kint); ("recvtype", Ptr Kint); ("comm", Ptr Kint); ("ierror", Ptr Kint)] "MPI_Alltoallv" [Same "sendbuf"; Same "sendcounts"; Same "sdispls"; Deref "sendtype"; Same "recvbuf"; Same "recvcounts"; Same "rdispls"; Deref "recvtype"; Deref "comm"] "ierror" (* collective.c 436-443 *);
  mkB "mpi_alltoallw" "MPI_ALLTOALLW" [("sendbuf", Ptr Kvoid); ("sendcounts", Ptr Kint); ("sdispls", Ptr Kint); ("sendtypes", Ptr Kint); ("recvbuf", Ptr Kvoid); ("recvcounts", Ptr Kint); ("rdispls", Ptr Kint); ("recvtypes", Ptr Kint); ("comm", Ptr Kint); ("ierror", Ptr Kint)] "MPI_Alltoallw" [Same "sendbuf"; Same "sendcounts"; Same "sdispls"; Same "sendtypes"; Same "recvbuf"; Same "recvcounts"; Same "rdispls"; Same "recvtypes"; Deref "comm"] "ierror" (* collective.c 481-488 *);
  mkB "mpi_comm_free" "MPI_COMM_FREE" [("comm", Ptr Kint); ("ierror", Ptr Kint)] "MPI_Comm_free" [Same "comm"] "ierror" (* comm.c 34-37 *);
  mkB "mpi_comm_size" "MPI_COMM_SIZE" [("comm", Ptr Kint); ("size", Ptr Kint); ("ierror", Ptr Kint)] "MPI_Comm_size" [Deref "comm"; Same "size"] "ierror" (* comm.c 86-89 *);
  mkB "mpi_comm_rank" "MPI_COMM_RANK" [("comm", Ptr Kint); ("rank", Ptr Kint); ("ierror", Ptr Kint)] "MPI_Comm_rank" [Deref "comm"; Same "rank"] "ierror" (* comm.c 105-108 *);
  mkB "mpi_comm_dup" "MPI_COMM_DUP" [("comm", Ptr Kint); ("newcomm", Ptr Kint); ("ierror", Ptr Kint)] "MPI_Comm_dup" [Deref "comm"; Same "newcomm"] "ierror" (* comm.c 124-129 *);
  mkB "mpi_comm_create" "MPI_COMM_CREATE" [("comm", Ptr Kint); ("group", Ptr Kint); ("newcomm", Ptr Kint); ("ierror", Ptr Kint)] "MPI_Comm_create" [Deref "comm"; Deref "group"; Same "newcomm"] "ierror" (* comm.c 150-153 *);
  mkB "mpi_comm_split" "MPI_COMM_SPLIT" [("comm", Ptr Kint); ("color", Ptr Kint); ("key", Ptr Kint); ("newcomm", Ptr Kint); ("ierror", Ptr Kint)] "MPI_Comm_split" [Deref "comm"; Deref "color"; Deref "key"; Same "newcomm"] "ierror" (* comm.c 174-178 *);
  mkB "mpi_comm_group" "MPI_COMM_GROUP" [("comm", Ptr Kint); ("group", Ptr Kint); ("ierror", Ptr Kint)] "MPI_Comm_group" [Deref "comm"; Same "group"] "ierror" (* comm.c 198-201 *);
  mkB "mpi_intercomm_create" "MPI_INTERCOMM_CREATE" [("local_comm", Ptr Kint); ("local_leader", Ptr Kint); ("peer_comm", Ptr Kint); ("remote_leader", Ptr Kint); ("tag", Ptr Kint); ("newintercomm", Ptr Kint); ("ierr", Ptr Kint)] "MPI_Intercomm_create" [Deref "local_comm"; Deref "local_leader"; Deref "peer_comm"; Deref "remote_leader"; Deref "tag"; Same "newintercomm"] "ierr" (* comm.c 223-227 *);
  mkB "mpi_get_count" "MPI_GET_COUNT" [("status", Ptr Kint); ("datatype", Ptr Kint); ("count", Ptr Kint); ("ierr", Ptr Kint)] "MPI_Get_count" [Same "status"; Deref "datatype"; Same "count"] "ierr" (* getcount.c 13-16 *);
  mkB "mpi_get_elements" "MPI_GET_ELEMENTS" [("status", Ptr Kstatus); ("datatype", Ptr Kint); ("count", Ptr Kint); ("ierr", Ptr Kint)] "MPI_Get_elements" [Same "status"; Deref "datatype"; Same "count"] "ierr" (* getcount.c 31-34 *);
  mkB "mpi_group_incl" "MPI_GROUP_INCL" [("group", Ptr Kint); ("n", Ptr Kint); ("ranks", Ptr Kint); ("newgroup", Ptr Kint); ("ierror", Ptr Kint)] "MPI_Group_incl" [Deref "group"; Deref "n"; Same "ranks"; Same "newgroup"] "ierror" (* group.c 10-13 *);
  mkB "mpi_group_range_incl" "MPI_GROUP_RANGE_INCL" [("group", Ptr Kint); ("n", Ptr Kint); ("ranges", Ptr Kint); ("newgroup", Ptr Kint); ("ierror", Ptr Kint)] "MPI_Group_range_incl" [Deref "group"; Deref "n"; Same "ranges"; Same "newgroup"] "ierror" (* group.c 52-55 *);
  mkB "mpi_group_union" "MPI_GROUP_UNION" [("group1", Ptr Kint); ("group2", Ptr Kint); ("newgroup", Ptr Kint); ("ierror", Ptr Kint)] "MPI_Group_union" [Deref "group1"; Deref "group2"; Same "newgroup"] "ierror" (* group.c 91-94 *);
  mkB "mpi_group_intersection" "MPI_GROUP_INTERSECTION" [("group1", Ptr Kint); ("group2", Ptr Kint); ("newgroup", Ptr Kint); ("ierror", Ptr Kint)] "MPI_Group_intersection" [Deref "group1"; Deref "group2"; Same "newgroup"] "ierror" (* group.c 122-125 *);
  mkB "mpi_group_difference" "MPI_GROUP_DIFFERENCE" [("group1", Ptr Kint); ("group2", Ptr Kint); ("newgroup", Ptr Kint); ("ierror", Ptr Kint)] "MPI_Group_difference" [Deref "group1"; Deref "group2"; Same "newgroup"] "ierror" (* group.c 155-158 *);
  mkB "mpi_group_free" "MPI_GROUP_FREE" [("group", Ptr Kint); ("ierror", Ptr Kint)] "MPI_Group_free" [Same "group"] "ierror" (* group.c 186-189 *);
  mkB "mpi_group_translate_ranks" "MPI_GROUP_TRANSLATE_RANKS" [("group1", Ptr Kint); ("n", Ptr Kint); ("ranks1", Ptr Kint); ("group2", Ptr Kint); ("ranks2", Ptr Kint); ("ierror", Ptr Kint)] "MPI_Group_translate_ranks" [Deref "group1"; Deref "n"; Same "ranks1"; Deref "group2"; Same "ranks2"] "ierror" (* group.c 207-210 *);
  mkB "mpi_info_create" "MPI_INFO_CREATE" [("info", Ptr Kint); ("ierror", Ptr Kint)] "MPI_Info_create" [Same "info"] "ierror" (* info.c 10-13 *);
  mkB "mpi_info_set" "MPI_INFO_SET" [("info", Ptr Kint); ("key", Ptr Kchar); ("value", Ptr Kchar); ("ierror", Ptr Kint)] "MPI_Info_set" [Deref "info"; Same "key"; Same "value"] "ierror" (* info.c 29-32 *);
  mkB "mpi_info_free" "MPI_INFO_FREE" [("info", Ptr Kint); ("ierror", Ptr Kint)] "MPI_Info_free" [Same "info"] "ierror" (* info.c 52-55 *);
  mkB "mpi_finalize" "MPI_FINALIZE" [("ierror", Ptr Kint)] "MPI_Finalize" [] "ierror" (* mpi.c 196-199 *);
  mkB "mpi_abort" "MPI_ABORT" [("comm", Ptr Kint); ("errorcode", Ptr Kint); ("ierror", Ptr Kint)] "MPI_Abort" [Deref "comm"; Deref "errorcode"] "ierror" (* mpi.c 225-228 *);
  mkB "mpi_error_string" "MPI_ERROR_STRING" [("errorcode", Ptr Kint); ("string", Ptr Kchar); ("resultlen", Ptr Kint); ("ierror", Ptr Kint)] "MPI_Error_string" [Deref "errorcode"; Same "string"; Same "resultlen"] "ierror" (* mpi.c 246-249 *);
  mkB "mpi_get_processor_name" "MPI_GET_PROCESSOR_NAME" [("name", Ptr Kchar); ("resultlen", Ptr Kint); ("ierror", Ptr Kint)] "MPI_Get_processor_name" [Same "name"; Same "resultlen"] "ierror" (* mpi.c 266-269 *);
  mkB "mpi_initialized" "MPI_INITIALIZED" [("flag", Ptr Kint); ("ierror", Ptr Kint)] "MPI_Initialized" [Same "flag"] "ierror" (* mpi.c 293-296 *);
  mkB "mpi_get_library_version" "MPI_GET_LIBRARY_VERSION" [("version", Ptr Kchar); ("resultlen", Ptr Kint); ("ierror", Ptr Kint)] "MPI_Get_library_version" [Same "version"; Same "resultlen"] "ierror" (* mpi.c 322-332 *);
  mkB "mpi_get_version" "MPI_GET_VERSION" [("mpi_vers", Ptr Kint); ("mpi_subvers", Ptr Kint); ("ierror", Ptr Kint)] "MPI_Get_Version" [Same "mpi_vers"; Same "mpi_subvers"] "ierror" (* mpi.c 346-351 *);
  mkB "mpi_op_create" "MPI_OP_CREATE" [("func", Ptr Kfun); ("commute", Ptr Kint); ("op", Ptr Kint); ("ierr", Ptr Kint)] "MPI_Op_create" [Same "func"; Deref "commute"; Same "op"] "ierr" (* op.c 9-12 *);
  mkB "mpi_op_free" "MPI_OP_FREE" [("op", Ptr Kint); ("ierr", Ptr Kint)] "MPI_Op_free" [Same "op"] "ierr" (* op.c 21-24 *);
  mkB "mpi_pack" "MPI_PACK" [("inbuf", Ptr Kvoid); ("incount", Ptr Kint); ("datatype", Ptr Kint); ("outbuf", Ptr Kvoid); ("outsize", Ptr Kint); ("position", Ptr Kint); ("comm", Ptr Kint); ("ierror", Ptr Kint)] "MPI_Pack" [Same "inbuf"; Deref "incount"; Deref "datatype"; Same "outbuf"; Deref "outsize"; Same "position"; Deref "comm"] "ierror" (* pack.c 15-19 *);
  mkB "mpi_pack_size" "MPI_PACK_SIZE" [("incount", Ptr Kint); ("datatype", Ptr Kint); ("comm", Ptr Kint); ("size", Ptr Kaint); ("ierr", Ptr Kint)] "MPI_Pack_size" [Deref "incount"; Deref "datatype"; Deref "comm"; Same "size"] "ierr" (* pack.c 79-82 *);
  mkB "mpi_unpack" "MPI_UNPACK" [("inbuf", Ptr Kvoid); ("insize", Ptr Kint); ("position", Ptr Kint); ("outbuf", Ptr Kvoid); ("outcount", Ptr Kint); ("datatype", Ptr Kint); ("comm", Ptr Kint); ("ierror", Ptr Kint)] "MPI_Unpack" [Same "inbuf"; Deref "insize"; Same "position"; Same "outbuf"; Deref "outcount"; Deref "datatype"; Deref "comm"] "ierror" (* pack.c 107-111 *);
  mkB "mpi_iprobe" "MPI_IPROBE" [("source", Ptr Kint); ("tag", Ptr Kint); ("comm", Ptr Kint); ("flag", Ptr Kint); ("status", Ptr Kint); ("ierr", Ptr Kint)] "MPI_Iprobe" [Deref "source"; Deref "tag"; Deref "comm"; Same "flag"; CStatus "status"] "ierr" (* probe.c 12-15 *);
  mkB "mpi_probe" "MPI_PROBE" [("source", Ptr Kint); ("tag", Ptr Kint); ("comm", Ptr Kint); ("status", Ptr Kint); ("ierr", Ptr Kint)] "MPI_Probe" [Deref "source"; Deref "tag"; Deref "comm"; CStatus "status"] "ierr" (* probe.c 68-71 *);
  mkB "mpi_irecv" "MPI_IRECV" [("buf", Ptr Kvoid); ("count", Ptr Kint); ("datatype", Ptr Kint); ("source", Ptr Kint); ("tag", Ptr Kint); ("comm", Ptr Kint); ("request", Ptr Kint); ("ierror", Ptr Kint)] "MPI_Irecv" [Same "buf"; Deref "count"; Deref "datatype"; Deref "source"; Deref "tag"; Deref "comm"; Same "request"] "ierror" (* recv.c 30-36 *);
  mkB "mpi_recv" "MPI_RECV" [("buf", Ptr Kvoid); ("count", Ptr Kint); ("datatype", Ptr Kint); ("source", Ptr Kint); ("tag", Ptr Kint); ("comm", Ptr Kint); ("status", Ptr Kint); ("ierror", Ptr Kint)] "MPI_Recv" [Same "buf"; Deref "count"; Deref "datatype"; Deref "source"; Deref "tag"; Deref "comm"; CStatus "status"] "ierror" (* recv.c 115-119 *);
  mkB "mpi_test" "MPI_TEST" [("request", Ptr Kint); ("flag", Ptr Kint); ("status", Ptr Kint); ("ierror", Ptr Kint)] "MPI_Test" [Same "request"; Same "flag"; CStatus "status"] "ierror" (* req.c 12-15 *);
  mkB "mpi_wait" "MPI_WAIT" [("request", Ptr Kint); ("status", Ptr Kint); ("ierror", Ptr Kint)] "MPI_Wait" [Same "request"; CStatus "status"] "ierror" (* req.c 57-60 *);
  mkB "mpi_waitany" "MPI_WAITANY" [("count", Ptr Kint); ("requests", Ptr Kint); ("index", Ptr Kint); ("status", Ptr Kint); ("ierror", Ptr Kint)] "MPI_Waitany" [Deref "count"; Same "requests"; Same "index"; CStatus "status"] "ierror" (* req.c 85-89 *);
  mkB "mpi_testany" "MPI_TESTANY" [("count", Ptr Kint); ("array_of_requests", Ptr Kint); ("index", Ptr Kint); ("flag", Ptr Kint); ("status", Ptr Kint); ("ierr", Ptr Kint)] "MPI_Testany" [Deref "count"; Same "array_of_requests"; Same "index"; Same "flag"; CStatus "status"] "ierr" (* req.c 120-124 *);
  mkB "mpi_testall" "MPI_TESTALL" [("count", Ptr Kint); ("array_of_requests", Ptr Kint); ("flag", Ptr Kint); ("array_of_statuses", Ptr Kint); ("ierr", Ptr Kint)] "MPI_Testall" [Deref "count"; Same "array_of_requests"; Same "flag"; CStatuses "array_of_statuses"] "ierr" (* req.c 152-156 *);
  mkB "mpi_waitall" "MPI_WAITALL" [("count", Ptr Kint); ("array_of_requests", Ptr Kint); ("array_of_statuses", Ptr Kint); ("ierror", Ptr Kint)] "MPI_Waitall" [Deref "count"; Same "array_of_requests"; CStatuses "array_of_statuses"] "ierror" (* req.c 184-189 *);
  mkB "mpi_testsome" "MPI_TESTSOME" [("incount", Ptr Kint); ("array_of_requests", Ptr Kint); ("outcount", Ptr Kint); ("array_of_indices", Ptr Kint); ("array_of_statuses", Ptr Kint); ("ierr", Ptr Kint)] "MPI_Testsome" [Deref "incount"; Same "array_of_requests"; Same "outcount"; Same "array_of_indices"; CStatuses "array_of_statuses"] "ierr" (* req.c 220-224 *);
  mkB "mpi_waitsome" "MPI_WAITSOME" [("incount", Ptr Kint); ("array_of_requests", Ptr Kint); ("outcount", Ptr Kint); ("array_of_indices", Ptr Kint); ("array_of_statuses", Ptr Kint); ("ierr", Ptr Kint)] "MPI_Waitsome" [Deref "incount"; Same "array_of_requests"; Same "outcount"; Same "array_of_indices"; CStatuses "array_of_statuses"] "ierr" (* req.c 253-257 *);
  mkB "mpi_request_free" "MPI_REQUEST_FREE" [("request", Ptr Kint); ("ierr", Ptr Kint)] "MPI_Request_free" [Same "request"] "ierr" (* req.c 280-283 *);
  mkB "mpi_isend" "MPI_ISEND" [("buf", Ptr Kvoid); ("count", Ptr Kint); ("datatype", Ptr Kint); ("dest", Ptr Kint); ("tag", Ptr Kint); ("comm", Ptr Kint); ("req", Ptr Kint); ("ierror", Ptr Kint)] "MPI_Isend" [Same "buf"; Deref "count"; Deref "datatype"; Deref "dest"; Deref "tag"; Deref "comm"; Same "req"] "ierror" (* send.c 26-32 *);
  mkB "mpi_send" "MPI_SEND" [("buf", Ptr Kvoid); ("count", Ptr Kint); ("datatype", Ptr Kint); ("dest", Ptr Kint); ("tag", Ptr Kint); ("comm", Ptr Kint); ("ierror", Ptr Kint)] "MPI_Send" [Same "buf"; Deref "count"; Deref "datatype"; Deref "dest"; Deref "tag"; Deref "comm"] "ierror" (* send.c 103-106 *);
  mkB "mpi_ssend" "MPI_SSEND" [("buf", Ptr Kvoid); ("count", Ptr Kint); ("datatype", Ptr Kint); ("dest", Ptr Kint); ("tag", Ptr Kint); ("comm", Ptr Kint); ("ierror", Ptr Kint)] "MPI_Send" [Same "buf"; Deref "count"; Deref "datatype"; Deref "dest"; Deref "tag"; Deref "comm"] "ierror" (* send.c 136-139 *);
  mkB "mpi_rsend" "MPI_RSEND" [("buf", Ptr Kvoid); ("count", Ptr Kint); ("datatype", Ptr Kint); ("dest", Ptr Kint); ("tag", Ptr Kint); ("comm", Ptr Kint); ("ierror", Ptr Kint)] "MPI_Send" [Same "buf"; Deref "count"; Deref "datatype"; Deref "dest"; Deref "tag"; Deref "comm"] "ierror" (* send.c 156-159 *);
  mkB "mpi_irsend" "MPI_IRSEND" [("buf", Ptr Kvoid); ("count", Ptr Kint); ("datatype", Ptr Kint); ("dest", Ptr Kint); ("tag", Ptr Kint); ("comm", Ptr Kint); ("req", Ptr Kint); ("ierror", Ptr Kint)] "MPI_Irsend" [Same "buf"; Deref "count"; Deref "datatype"; Deref "dest"; Deref "tag"; Deref "comm"; Same "req"] "ierror" (* send.c 178-184 *);
  mkB "mpi_sendrecv" "MPI_SENDRECV" [("sendbuf", Ptr Kvoid); ("sendcount", Ptr Kint); ("sendtype", Ptr Kint); ("dest", Ptr Kint); ("sendtag", Ptr Kint); ("recvbuf", Ptr Kvoid); ("recvcount", Ptr Kint); ("recvtype", Ptr Kint); ("source", Ptr Kint); ("recvtag", Ptr Kint); ("comm", Ptr Kint); ("status", Ptr Kint); ("ierror", Ptr Kint)] "MPI_Sendrecv" [Same "sendbuf"; Deref "sendcount"; Deref "sendtype"; Deref "dest"; Deref "sendtag"; Same "recvbuf"; Deref "recvcount"; Deref "recvtype"; Deref "source"; Deref "recvtag"; Deref "comm"; CStatus "status"] "ierror" (* send.c 224-229 *);
  mkB "mpi_type_extent" "MPI_TYPE_EXTENT" [("type", Ptr Kint); ("extent", Ptr Kaint); ("ierr", Ptr Kint)] "MPI_Type_extent" [Deref "type"; Same "extent"] "ierr" (* type.c 211-214 *);
  mkB "mpi_type_struct" "MPI_TYPE_STRUCT" [("count", Ptr Kint); ("blocklens", Ptr Kint); ("displacements", Ptr Kaint); ("oldtypes_ptr", Ptr Kint); ("newtype", Ptr Kint); ("ierror", Ptr Kint)] "MPI_Type_struct" [Deref "count"; Same "blocklens"; Same "displacements"; Same "oldtypes_ptr"; Same "newtype"] "ierror" (* type.c 394-398 *);
  mkB "mpi_type_contiguous" "MPI_TYPE_CONTIGUOUS" [("count", Ptr Kint); ("oldtype", Ptr Kint); ("newtype", Ptr Kint); ("ierr", Ptr Kint)] "MPI_Type_contiguous" [Deref "count"; Deref "oldtype"; Same "newtype"] "ierr" (* type.c 449-452 *);
  mkB "mpi_type_hvector" "MPI_TYPE_HVECTOR" [("count", Ptr Kint); ("blocklen", Ptr Klong); ("stride", Ptr Klong); ("oldtype", Ptr Kint); ("newtype", Ptr Kint); ("ierr", Ptr Kint)] "MPI_Type_hvector" [Deref "count"; Deref "blocklen"; Deref "stride"; Deref "oldtype"; Same "newtype"] "ierr" (* type.c 489-492 *);
  mkB "mpi_type_create_hvector" "MPI_TYPE_CREATE_HVECTOR" [("count", Ptr Kint); ("blocklen", Ptr Klong); ("stride", Ptr Klong); ("oldtype", Ptr Kint); ("newtype", Ptr Kint); ("ierr", Ptr Kint)] "MPI_Type_create_hvector" [Deref "count"; Deref "blocklen"; Deref "stride"; Deref "oldtype"; Same "newtype"] "ierr" (* type.c 507-510 *);
  mkB "mpi_type_vector" "MPI_TYPE_VECTOR" [("count", Ptr Kint); ("blocklen", Ptr Kint); ("stride", Ptr Kint); ("oldtype", Ptr Kint); ("newtype", Ptr Kint); ("ierr", Ptr Kint)] "MPI_Type_vector" [Deref "count"; Deref "blocklen"; Deref "stride"; Deref "oldtype"; Same "newtype"] "ierr" (* type.c 542-546 *);
  mkB "mpi_type_hindexed" "MPI_TYPE_HINDEXED" [("count", Ptr Kint); ("blocklens", Ptr Kint); ("displacements", Ptr Kaint); ("oldtype", Ptr Kint); ("newtype", Ptr Kint); ("ierr", Ptr Kint)] "MPI_Type_hindexed" [Deref "count"; Same "blocklens"; Same "displacements"; Deref "oldtype"; Same "newtype"] "ierr" (* type.c 579-583 *);
  mkB "mpi_type_indexed" "MPI_TYPE_INDEXED" [("count", Ptr Kint); ("blocklens", Ptr Kint); ("displacements", Ptr Kint); ("oldtype", Ptr Kint); ("newtype", Ptr Kint); ("ierr", Ptr Kint)] "MPI_Type_indexed" [Deref "count"; Same "blocklens"; Same "displacements"; Deref "oldtype"; Same "newtype"] "ierr" (* type.c 617-620 *);
  mkB "mpi_type_create_indexed_block" "MPI_TYPE_CREATE_INDEXED_BLOCK" [("count", Ptr Kint); ("blocklen", Ptr Kint); ("displacements", Ptr Kint); ("oldtype", Ptr Kint); ("newtype", Ptr Kint); ("ierr", Ptr Kint)] "MPI_Type_create_indexed_block" [Deref "count"; Deref "blocklen"; Same "displacements"; Deref "oldtype"; Same "newtype"] "ierr" (* type.c 650-654 *);
  mkB "mpi_type_size" "MPI_TYPE_SIZE" [("type", Ptr Kint); ("size", Ptr Kint); ("ierr", Ptr Kint)] "MPI_Type_size" [Deref "type"; Same "size"] "ierr" (* type.c 702-705 *);
  mkB "mpi_type_lb" "MPI_TYPE_LB" [("type", Ptr Kint); ("lb", Ptr Kaint); ("ierr", Ptr Kint)] "MPI_Type_lb" [Deref "type"; Same "lb"] "ierr" (* type.c 723-726 *);
  mkB "mpi_type_ub" "MPI_TYPE_UB" [("type", Ptr Kint); ("ub", Ptr Kaint); ("ierr", Ptr Kint)] "MPI_Type_ub" [Deref "type"; Same "ub"] "ierr" (* type.c 745-748 *);
  mkB "mpi_get_address" "MPI_ADDRESS" [("loc", Ptr Kvoid); ("address", Ptr Klong); ("ierr", Ptr Kint)] "FGet_address" [Same "loc"; Same "address"] "ierr" (* type.c 768-771 *);
  mkB "mpi_address" "MPI_ADDRESS" [("loc", Ptr Kvoid); ("address", Ptr Klong); ("ierr", Ptr Kint)] "FGet_address" [Same "loc"; Same "address"] "ierr" (* type.c 780-784 *);
  mkB "mpi_type_commit" "MPI_TYPE_COMMIT" [("datatype", Ptr Kint); ("ierr", Ptr Kint)] "MPI_Type_commit" [Same "datatype"] "ierr" (* type.c 794-797 *);
  mkB "mpi_type_free" "MPI_TYPE_FREE" [("datatype", Ptr Kint); ("ierr", Ptr Kint)] "MPI_Type_free" [Same "datatype"] "ierr" (* type.c 809-812 *);
  mkB "print_typemap" "PRINT_TYPEMAP" [("type", Ptr Kint); ("ierr", Ptr Kint)] "print_typemap" [Deref "type"] "ierr" (* type.c 831-834 *)
].

(** Evaluation of the arguments of a call such as mpi.c 226: the parameter (or routine) with a given name. *)
Fixpoint lookup {A : Type} (n : string) (l : list (string * A)) : option A :=
  match l with [] => None | (k, v) :: r => if String.eqb k n then Some v else lookup n r end.
(** The value of the object a pointer to [k] points to, e.g. *comm in mpi.c 226: 4, 8, 8 or 1 bytes. *)
Definition read (k : kind) (m : mem) (a : Z) : res Z :=
  match k with
  | Kint => do v <- load 4 m a; Ok (to_s32 v)
  | Klong => do v <- load 8 m a; Ok (to_s64 v)
  | Kaint => load 8 m a
  | Kchar => load 1 m a
  | _ => UB "dereference"
  end.
(** The conversion of an argument to the type of the parameter, e.g. of a long to int in type.c 490. *)
Definition convert (k : kind) (v : Z) : Z :=
  match k with Kint => to_s32 v | Klong => to_s64 v | Kaint => to_u64 v | Kchar => v mod 256 | _ => v end.
(** A pointer handed on as it is, e.g. string in mpi.c 247. *)
Definition ptr_of (fo : prm) (a : Z) : res Z := match fo with Ptr _ => Ok a | Val _ => UB "type error" end.
(** mpi.h 193-194: the C sentinels for statuses are null pointers; mpi.c 365-389. *)
Definition eval_arg (f : fort) (m : mem) (params : list (string * prm)) (env : list (string * Z)) (fo : prm) (e : arg) : res Z :=
  let address (x : string) := match lookup x env with Some a => Ok a | None => UB "no such parameter" end in
  match e with
  | Deref x => match fo, lookup x params with
               | Val k, Some (Ptr k') => do a <- address x; do v <- read k' m a; Ok (convert k v)
               | _, _ => UB "type error"
               end
  | Same x => do a <- address x; ptr_of fo a
  | CStatus x => do a <- address x; ptr_of fo (if Z.eqb a (f_status f) then 0 else a)
  | CStatuses x => do a <- address x; ptr_of fo (if Z.eqb a (f_statuses f) then 0 else a)
  | CInPlace x => do a <- address x; ptr_of fo (mpi_c_in_place f a)
  end.
(** All arguments of one call, e.g. mpi.c 247, in order. *)
Fixpoint eval_args (f : fort) (m : mem) (params : list (string * prm)) (env : list (string * Z)) (fos : list prm) (es : list arg) : res (list Z) :=
  match fos, es with
  | [], [] => Ok []
  | fo :: fos, e :: es => do v <- eval_arg f m params env fo e; do r <- eval_args f m params env fos es; Ok (v :: r)
  | _, _ => UB "wrong number of arguments"
  end.
(** What the binding [b] passes when called with the addresses [addrs], e.g. mpi.c 224-228. *)
Definition passed (f : fort) (m : mem) (b : bind_text) (addrs : list Z) : res (list Z) :=
  match lookup (b_callee b) prototypes with
  | Some fos => eval_args f m (b_params b) (combine (map fst (b_params b)) addrs) fos (b_args b)
  | None => UB "no prototype"
  end.
(** Where the return code goes, e.g. ierror in mpi.c 226. *)
Definition code_at (b : bind_text) (addrs : list Z) : option Z := lookup (b_ierr b) (combine (map fst (b_params b)) addrs).
