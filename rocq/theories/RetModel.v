(** Model of the return codes: what every routine of the library that returns an error code can return, one entry per return
    statement, and what every Fortran entry point stores in its last argument.  Conditions are left out: an entry stands for a
    return statement whether or not it can be reached.  Routines that end in exit() have no entry in their list. *)
From Verif Require Import Base.
#[local] Open Scope string_scope.

(** mpi.h 28. *)
Definition MPI_SUCCESS : Z := 0.

(** return MPI_SUCCESS (mpi.c 188); return (or store) the value of a call of [f] (mpi.c 161, 54); return the number [n] (mpi.c 155). *)
Inductive rexpr := Success | Of (f : string) | Value (n : Z).

(** Name, and the return statements in order; each line cites its own (cart.c 12 to type.c 865).  mpi_init_fort returns the variable
    err after "if (err) abort();" (mpi.c 153-155). *)
Definition returns_of : list (string * list rexpr) := [
  ("mpi_cart_create", [Success]); (* cart.c 13-17 *)
  ("MPI_Cart_create", [Success]); (* cart.c 22-34 *)
  ("mpi_cart_get", [Success]); (* cart.c 51-54 *)
  ("MPI_Cart_get", [Success]); (* cart.c 59-67 *)
  ("mpi_cart_coords", [Success]); (* cart.c 81-84 *)
  ("MPI_Cart_coords", [Success]); (* cart.c 88-101 *)
  ("mpi_dims_create", [Success]); (* cart.c 113-116 *)
  ("MPI_Dims_create", [Success]); (* cart.c 120-133 *)
  ("mpi_barrier", [Success]); (* collective.c 12-15 *)
  ("MPI_Barrier", [Success]); (* collective.c 19-21 *)
  ("mpi_bcast", [Success]); (* collective.c 29-32 *)
  ("MPI_Bcast", [Success; Success]); (* collective.c 38-50 *)
  ("mpi_gather", [Success]); (* collective.c 60-65 *)
  ("MPI_Gather", [Success; Success; Success]); (* collective.c 71-89 *)
  ("mpi_gatherv", [Success]); (* collective.c 99-104 *)
  ("MPI_Gatherv", [Success; Success; Success]); (* collective.c 110-135 *)
  ("mpi_allgather", [Success]); (* collective.c 146-151 *)
  ("MPI_Allgather", [Success; Success]); (* collective.c 157-167 *)
  ("mpi_allgatherv", [Success]); (* collective.c 177-182 *)
  ("MPI_Allgatherv", [Success; Success]); (* collective.c 188-204 *)
  ("mpi_scatter", [Success]); (* collective.c 218-223 *)
  ("MPI_Scatter", [Success; Success; Success]); (* collective.c 228-245 *)
  ("mpi_scatterv", [Success]); (* collective.c 256-261 *)
  ("MPI_Scatterv", [Success; Success; Success]); (* collective.c 268-291 *)
  ("mpi_reduce", [Success]); (* collective.c 302-306 *)
  ("MPI_Reduce", [Success]); (* collective.c 313-324 *)
  ("mpi_allreduce", [Success]); (* collective.c 333-338 *)
  ("MPI_Allreduce", [Success; Success]); (* collective.c 343-352 *)
  ("mpi_reduce_scatter", [Success]); (* collective.c 366-369 *)
  ("MPI_Reduce_scatter", [Success]); (* collective.c 374-377 *)
  ("mpi_scan", [Success]); (* collective.c 387-391 *)
  ("MPI_Scan", [Success]); (* collective.c 397-401 *)
  ("mpi_alltoall", [Success]); (* collective.c 410-415 *)
  ("MPI_Alltoall", [Success]); (* collective.c 421-426 *)
  ("mpi_alltoallv", [Success]); (* collective.c 436-443 *)
  ("MPI_Alltoallv", [Success]); (* collective.c 451-471 *)
  ("mpi_alltoallw", [Success]); (* collective.c 481-488 *)
  ("MPI_Alltoallw", [Success]); (* collective.c 497-504 *)
  ("mpi_comm_free", [Success]); (* comm.c 34-37 *)
  ("MPI_Comm_free", [Success]); (* comm.c 51-78 *)
  ("mpi_comm_size", [Success]); (* comm.c 86-89 *)
  ("MPI_Comm_size", [Success]); (* comm.c 94-98 *)
  ("mpi_comm_rank", [Success]); (* comm.c 105-108 *)
  ("MPI_Comm_rank", [Success]); (* comm.c 112-116 *)
  ("mpi_comm_dup", [Success]); (* comm.c 124-129 *)
  ("MPI_Comm_dup", [Success]); (* comm.c 133-142 *)
  ("mpi_comm_create", [Success]); (* comm.c 150-153 *)
  ("MPI_Comm_create", [Success]); (* comm.c 158-165 *)
  ("mpi_comm_split", [Success]); (* comm.c 174-178 *)
  ("MPI_Comm_split", [Success]); (* comm.c 183-190 *)
  ("mpi_comm_group", [Success]); (* comm.c 198-201 *)
  ("MPI_Comm_group", [Success]); (* comm.c 206-213 *)
  ("mpi_intercomm_create", [Success]); (* comm.c 223-227 *)
  ("MPI_Intercomm_create", [Success]); (* comm.c 232-239 *)
  ("copy_data2", [Of "Pcopy_data2"]); (* copy.c 32-37 *)
  ("Pcopy_data2", [Success]); (* copy.c 44-88 *)
  ("MPI_Errhandler_set", [Success]); (* error.c 11-13 *)
  ("mpi_get_count", [Success]); (* getcount.c 13-16 *)
  ("MPI_Get_count", [Success]); (* getcount.c 20-23 *)
  ("mpi_get_elements", [Success]); (* getcount.c 31-34 *)
  ("MPI_Get_elements", [Success]); (* getcount.c 38-42 *)
  ("mpi_group_incl", [Success]); (* group.c 10-13 *)
  ("MPI_Group_incl", [Success]); (* group.c 17-37 *)
  ("mpi_group_range_incl", [Success]); (* group.c 52-55 *)
  ("MPI_Group_range_incl", [Success]); (* group.c 60-80 *)
  ("mpi_group_union", [Success]); (* group.c 91-94 *)
  ("MPI_Group_union", [Success]); (* group.c 99-114 *)
  ("mpi_group_intersection", [Success]); (* group.c 122-125 *)
  ("MPI_Group_intersection", [Success]); (* group.c 131-146 *)
  ("mpi_group_difference", [Success]); (* group.c 155-158 *)
  ("MPI_Group_difference", [Success]); (* group.c 164-178 *)
  ("mpi_group_free", [Success]); (* group.c 186-189 *)
  ("MPI_Group_free", [Success]); (* group.c 193-197 *)
  ("mpi_group_translate_ranks", [Success]); (* group.c 207-210 *)
  ("MPI_Group_translate_ranks", [Success; Success]); (* group.c 216-252 *)
  ("MPI_Intercomm_merge", [Success]); (* ic_merge.c 12-15 *)
  ("mpi_info_create", [Success]); (* info.c 10-13 *)
  ("MPI_Info_create", [Success]); (* info.c 18-22 *)
  ("mpi_info_set", [Success]); (* info.c 29-32 *)
  ("MPI_Info_set", [Success]); (* info.c 36-39 *)
  ("MPI_Info_free", [Success]); (* info.c 45-49 *)
  ("mpi_info_free", [Success]); (* info.c 52-55 *)
  ("mpi_init_fort", [Value 0]); (* mpi.c 49-156 *)
  ("MPI_Init_thread", [Of "MPI_Init"]); (* mpi.c 159-162 *)
  ("MPI_Init", [Success]); (* mpi.c 165-189 *)
  ("mpi_finalize", [Success]); (* mpi.c 196-199 *)
  ("MPI_Finalize", [Success]); (* mpi.c 212-218 *)
  ("mpi_abort", [Success]); (* mpi.c 225-228 *)
  ("MPI_Abort", []); (* mpi.c 233-236 *)
  ("mpi_error_string", [Success]); (* mpi.c 246-249 *)
  ("MPI_Error_string", [Success]); (* mpi.c 253-258 *)
  ("mpi_get_processor_name", [Success]); (* mpi.c 266-269 *)
  ("MPI_Get_processor_name", [Success]); (* mpi.c 273-286 *)
  ("mpi_initialized", [Success]); (* mpi.c 293-296 *)
  ("MPI_Initialized", [Success]); (* mpi.c 300-304 *)
  ("MPI_Get_library_version", [Success]); (* mpi.c 310-318 *)
  ("MPI_Get_Version", [Success]); (* mpi.c 337-342 *)
  ("mpi_op_create", [Success]); (* op.c 9-12 *)
  ("MPI_Op_create", [Success]); (* op.c 15-18 *)
  ("mpi_op_free", [Success]); (* op.c 21-24 *)
  ("MPI_Op_free", [Success]); (* op.c 27-29 *)
  ("mpi_pack", [Success]); (* pack.c 15-19 *)
  ("MPI_Pack", [Of "Pack"]); (* pack.c 25-34 *)
  ("Pack", [Success]); (* pack.c 40-60 *)
  ("Pack_size", [Success]); (* pack.c 64-75 *)
  ("mpi_pack_size", [Success]); (* pack.c 79-82 *)
  ("MPI_Pack_size", [Of "Pack_size"]); (* pack.c 86-94 *)
  ("mpi_unpack", [Success]); (* pack.c 107-111 *)
  ("MPI_Unpack", [Of "Unpack"]); (* pack.c 116-124 *)
  ("Unpack", [Success]); (* pack.c 128-149 *)
  ("mpi_iprobe", [Success]); (* probe.c 12-15 *)
  ("MPI_Iprobe", [Success]); (* probe.c 24-60 *)
  ("mpi_probe", [Success]); (* probe.c 68-71 *)
  ("MPI_Probe", [Success]); (* probe.c 76-89 *)
  ("mpi_irecv", [Success]); (* recv.c 30-36 *)
  ("MPI_Irecv", [Success; Success; Success]); (* recv.c 43-106 *)
  ("mpi_recv", [Success]); (* recv.c 115-119 *)
  ("MPI_Recv", [Success]); (* recv.c 125-141 *)
  ("mpi_test", [Success]); (* req.c 12-15 *)
  ("MPI_Test", [Success; Success]); (* req.c 20-52 *)
  ("mpi_wait", [Success]); (* req.c 57-60 *)
  ("MPI_Wait", [Success]); (* req.c 65-77 *)
  ("mpi_waitany", [Success]); (* req.c 85-89 *)
  ("MPI_Waitany", [Success]); (* req.c 95-110 *)
  ("mpi_testany", [Success]); (* req.c 120-124 *)
  ("MPI_Testany", [Success; Success]); (* req.c 128-143 *)
  ("mpi_testall", [Success]); (* req.c 152-156 *)
  ("MPI_Testall", [Success]); (* req.c 160-175 *)
  ("mpi_waitall", [Success]); (* req.c 184-189 *)
  ("MPI_Waitall", [Success]); (* req.c 195-211 *)
  ("mpi_testsome", [Success]); (* req.c 220-224 *)
  ("MPI_Testsome", [Success]); (* req.c 228-244 *)
  ("mpi_waitsome", [Success]); (* req.c 253-257 *)
  ("MPI_Waitsome", [Success]); (* req.c 261-272 *)
  ("mpi_request_free", [Success]); (* req.c 280-283 *)
  ("MPI_Request_free", [Success]); (* req.c 286-290 *)
  ("mpi_isend", [Success]); (* send.c 26-32 *)
  ("MPI_Isend", [Success; Success; Success]); (* send.c 38-95 *)
  ("mpi_send", [Success]); (* send.c 103-106 *)
  ("MPI_Send", [Success]); (* send.c 112-126 *)
  ("mpi_ssend", [Success]); (* send.c 136-139 *)
  ("MPI_Ssend", [Of "MPI_Send"]); (* send.c 145-147 *)
  ("mpi_rsend", [Success]); (* send.c 156-159 *)
  ("MPI_Rsend", [Of "MPI_Send"]); (* send.c 165-167 *)
  ("mpi_irsend", [Success]); (* send.c 178-184 *)
  ("MPI_Irsend", [Success]); (* send.c 190-211 *)
  ("mpi_sendrecv", [Success]); (* send.c 224-229 *)
  ("MPI_Sendrecv", [Success]); (* send.c 238-250 *)
  ("Type_extent", [Success]); (* type.c 189-208 *)
  ("mpi_type_extent", [Success]); (* type.c 211-214 *)
  ("MPI_Type_extent", [Of "Type_extent"]); (* type.c 217-221 *)
  ("Type_get_true_extent", [Success]); (* type.c 228-241 *)
  ("Copy_type", [Success]); (* type.c 246-251 *)
  ("Type_struct", [Success]); (* type.c 261-389 *)
  ("mpi_type_struct", [Success]); (* type.c 394-398 *)
  ("MPI_Type_struct", [Of "Type_struct"]); (* type.c 405-419 *)
  ("Type_contiguous", [Of "Type_struct"]); (* type.c 428-445 *)
  ("mpi_type_contiguous", [Success]); (* type.c 449-452 *)
  ("MPI_Type_contiguous", [Of "Type_contiguous"]); (* type.c 455-462 *)
  ("Type_hvector", [Of "Type_struct"]); (* type.c 468-484 *)
  ("mpi_type_hvector", [Success]); (* type.c 489-492 *)
  ("MPI_Type_hvector", [Of "Type_hvector"]); (* type.c 496-502 *)
  ("mpi_type_create_hvector", [Success]); (* type.c 507-510 *)
  ("MPI_Type_create_hvector", [Of "Type_hvector"]); (* type.c 514-520 *)
  ("Type_vector", [Of "Type_hvector"]); (* type.c 529-537 *)
  ("mpi_type_vector", [Success]); (* type.c 542-546 *)
  ("MPI_Type_vector", [Of "Type_vector"]); (* type.c 550-557 *)
  ("Type_hindexed", [Of "Type_struct"]); (* type.c 564-574 *)
  ("mpi_type_hindexed", [Success]); (* type.c 579-583 *)
  ("MPI_Type_hindexed", [Of "Type_hindexed"]); (* type.c 587-593 *)
  ("Type_indexed", [Of "Type_hindexed"]); (* type.c 600-612 *)
  ("mpi_type_indexed", [Success]); (* type.c 617-620 *)
  ("MPI_Type_indexed", [Of "Type_indexed"]); (* type.c 625-631 *)
  ("Type_create_indexed_block", [Of "Type_indexed"]); (* type.c 637-645 *)
  ("mpi_type_create_indexed_block", [Success]); (* type.c 650-654 *)
  ("MPI_Type_create_indexed_block", [Of "Type_create_indexed_block"]); (* type.c 658-664 *)
  ("Type_dup", [Success]); (* type.c 669-685 *)
  ("Type_size", [Success]); (* type.c 691-699 *)
  ("mpi_type_size", [Success]); (* type.c 702-705 *)
  ("MPI_Type_size", [Of "Type_size"]); (* type.c 708-711 *)
  ("Type_lb", [Success]); (* type.c 717-720 *)
  ("mpi_type_lb", [Success]); (* type.c 723-726 *)
  ("MPI_Type_lb", [Of "Type_lb"]); (* type.c 729-733 *)
  ("Type_ub", [Success]); (* type.c 739-742 *)
  ("mpi_type_ub", [Success]); (* type.c 745-748 *)
  ("MPI_Type_ub", [Of "Type_ub"]); (* type.c 751-755 *)
  ("FGet_address", [Success]); (* type.c 762-765 *)
  ("mpi_get_address", [Success]); (* type.c 768-771 *)
  ("MPI_Get_address", [Success]); (* type.c 774-777 *)
  ("mpi_address", [Success]); (* type.c 780-784 *)
  ("MPI_Address", [Of "MPI_Get_address"]); (* type.c 787-789 *)
  ("mpi_type_commit", [Success]); (* type.c 794-797 *)
  ("MPI_Type_commit", [Success]); (* type.c 800-805 *)
  ("mpi_type_free", [Success]); (* type.c 809-812 *)
  ("MPI_Type_free", [Success]); (* type.c 815-823 *)
  ("print_typemap", [Success]); (* type.c 831-834 *)
  ("print_typemap", [Of "Pprint_typemap"]); (* type.c 837-841 *)
  ("Pprint_typemap", [Success]) (* type.c 844-865 *)
].

(** Fortran entry points: what is stored through ierror, e.g. mpi.c 226; each line cites its own. *)
Definition ierror_of : list (string * rexpr) := [
  ("mpi_cart_create", Of "MPI_Cart_create"); (* cart.c 13-17 *)
  ("mpi_cart_get", Of "MPI_Cart_get"); (* cart.c 51-54 *)
  ("mpi_cart_coords", Of "MPI_Cart_coords"); (* cart.c 81-84 *)
  ("mpi_dims_create", Of "MPI_Dims_create"); (* cart.c 113-116 *)
  ("mpi_barrier", Of "MPI_Barrier"); (* collective.c 12-15 *)
  ("mpi_bcast", Of "MPI_Bcast"); (* collective.c 29-32 *)
  ("mpi_gather", Of "MPI_Gather"); (* collective.c 60-65 *)
  ("mpi_gatherv", Of "MPI_Gatherv"); (* collective.c 99-104 *)
  ("mpi_allgather", Of "MPI_Allgather"); (* collective.c 146-151 *)
  ("mpi_allgatherv", Of "MPI_Allgatherv"); (* collective.c 177-182 *)
  ("mpi_scatter", Of "MPI_Scatter"); (* collective.c 218-223 *)
  ("mpi_scatterv", Of "MPI_Scatterv"); (* collective.c 256-261 *)
  ("mpi_reduce", Of "MPI_Reduce"); (* collective.c 302-306 *)
  ("mpi_allreduce", Of "MPI_Allreduce"); (* collective.c 333-338 *)
  ("mpi_reduce_scatter", Of "MPI_Reduce_scatter"); (* collective.c 366-369 *)
  ("mpi_scan", Of "MPI_Scan"); (* collective.c 387-391 *)
  ("mpi_alltoall", Of "MPI_Alltoall"); (* collective.c 410-415 *)
  ("mpi_alltoallv", Of "MPI_Alltoallv"); (* collective.c 436-443 *)
  ("mpi_alltoallw", Of "MPI_Alltoallw"); (* collective.c 481-488 *)
  ("mpi_comm_free", Of "MPI_Comm_free"); (* comm.c 34-37 *)
  ("mpi_comm_size", Of "MPI_Comm_size"); (* comm.c 86-89 *)
  ("mpi_comm_rank", Of "MPI_Comm_rank"); (* comm.c 105-108 *)
  ("mpi_comm_dup", Of "MPI_Comm_dup"); (* comm.c 124-129 *)
  ("mpi_comm_create", Of "MPI_Comm_create"); (* comm.c 150-153 *)
  ("mpi_comm_split", Of "MPI_Comm_split"); (* comm.c 174-178 *)
  ("mpi_comm_group", Of "MPI_Comm_group"); (* comm.c 198-201 *)
  ("mpi_intercomm_create", Of "MPI_Intercomm_create"); (* comm.c 223-227 *)
  ("mpi_get_count", Of "MPI_Get_count"); (* getcount.c 13-16 *)
  ("mpi_get_elements", Of "MPI_Get_elements"); (* getcount.c 31-34 *)
  ("mpi_group_incl", Of "MPI_Group_incl"); (* group.c 10-13 *)
  ("mpi_group_range_incl", Of "MPI_Group_range_incl"); (* group.c 52-55 *)
  ("mpi_group_union", Of "MPI_Group_union"); (* group.c 91-94 *)
  ("mpi_group_intersection", Of "MPI_Group_intersection"); (* group.c 122-125 *)
  ("mpi_group_difference", Of "MPI_Group_difference"); (* group.c 155-158 *)
  ("mpi_group_free", Of "MPI_Group_free"); (* group.c 186-189 *)
  ("mpi_group_translate_ranks", Of "MPI_Group_translate_ranks"); (* group.c 207-210 *)
  ("mpi_info_create", Of "MPI_Info_create"); (* info.c 10-13 *)
  ("mpi_info_set", Of "MPI_Info_set"); (* info.c 29-32 *)
  ("mpi_info_free", Of "MPI_Info_free"); (* info.c 52-55 *)
  ("mpi_init_fort", Of "MPI_Init"); (* mpi.c 49-156 *)
  ("mpi_finalize", Of "MPI_Finalize"); (* mpi.c 196-199 *)
  ("mpi_abort", Of "MPI_Abort"); (* mpi.c 225-228 *)
  ("mpi_error_string", Of "MPI_Error_string"); (* mpi.c 246-249 *)
  ("mpi_get_processor_name", Of "MPI_Get_processor_name"); (* mpi.c 266-269 *)
  ("mpi_initialized", Of "MPI_Initialized"); (* mpi.c 293-296 *)
  ("mpi_get_library_version", Success); (* mpi.c 322-332 *)
  ("mpi_get_version", Success); (* mpi.c 346-351 *)
  ("mpi_op_create", Of "MPI_Op_create"); (* op.c 9-12 *)
  ("mpi_op_free", Of "MPI_Op_free"); (* op.c 21-24 *)
  ("mpi_pack", Of "MPI_Pack"); (* pack.c 15-19 *)
  ("mpi_pack_size", Of "MPI_Pack_size"); (* pack.c 79-82 *)
  ("mpi_unpack", Of "MPI_Unpack"); (* pack.c 107-111 *)
  ("mpi_iprobe", Of "MPI_Iprobe"); (* probe.c 12-15 *)
  ("mpi_probe", Of "MPI_Probe"); (* probe.c 68-71 *)
  ("mpi_irecv", Of "MPI_Irecv"); (* recv.c 30-36 *)
  ("mpi_recv", Of "MPI_Recv"); (* recv.c 115-119 *)
  ("mpi_test", Of "MPI_Test"); (* req.c 12-15 *)
  ("mpi_wait", Of "MPI_Wait"); (* req.c 57-60 *)
  ("mpi_waitany", Of "MPI_Waitany"); (* req.c 85-89 *)
  ("mpi_testany", Of "MPI_Testany"); (* req.c 120-124 *)
  ("mpi_testall", Of "MPI_Testall"); (* req.c 152-156 *)
  ("mpi_waitall", Of "MPI_Waitall"); (* req.c 184-189 *)
  ("mpi_testsome", Of "MPI_Testsome"); (* req.c 220-224 *)
  ("mpi_waitsome", Of "MPI_Waitsome"); (* req.c 253-257 *)
  ("mpi_request_free", Of "MPI_Request_free"); (* req.c 280-283 *)
  ("mpi_isend", Of "MPI_Isend"); (* send.c 26-32 *)
  ("mpi_send", Of "MPI_Send"); (* send.c 103-106 *)
  ("mpi_ssend", Of "MPI_Send"); (* send.c 136-139 *)
  ("mpi_rsend", Of "MPI_Send"); (* send.c 156-159 *)
  ("mpi_irsend", Of "MPI_Irsend"); (* send.c 178-184 *)
  ("mpi_sendrecv", Of "MPI_Sendrecv"); (* send.c 224-229 *)
  ("mpi_type_extent", Of "MPI_Type_extent"); (* type.c 211-214 *)
  ("mpi_type_struct", Of "MPI_Type_struct"); (* type.c 394-398 *)
  ("mpi_type_contiguous", Of "MPI_Type_contiguous"); (* type.c 449-452 *)
  ("mpi_type_hvector", Of "MPI_Type_hvector"); (* type.c 489-492 *)
  ("mpi_type_create_hvector", Of "MPI_Type_create_hvector"); (* type.c 507-510 *)
  ("mpi_type_vector", Of "MPI_Type_vector"); (* type.c 542-546 *)
  ("mpi_type_hindexed", Of "MPI_Type_hindexed"); (* type.c 579-583 *)
  ("mpi_type_indexed", Of "MPI_Type_indexed"); (* type.c 617-620 *)
  ("mpi_type_create_indexed_block", Of "MPI_Type_create_indexed_block"); (* type.c 650-654 *)
  ("mpi_type_size", Of "MPI_Type_size"); (* type.c 702-705 *)
  ("mpi_type_lb", Of "MPI_Type_lb"); (* type.c 723-726 *)
  ("mpi_type_ub", Of "MPI_Type_ub"); (* type.c 745-748 *)
  ("mpi_get_address", Of "FGet_address"); (* type.c 768-771 *)
  ("mpi_address", Of "FGet_address"); (* type.c 780-784 *)
  ("mpi_type_commit", Of "MPI_Type_commit"); (* type.c 794-797 *)
  ("mpi_type_free", Of "MPI_Type_free"); (* type.c 809-812 *)
  ("print_typemap", Of "print_typemap") (* type.c 831-834 *)
].

(** [returns f v]: a call of [f] can return [v], according to the return statements (e.g. mpi.c 161, 188). *)
Inductive returns : string -> Z -> Prop :=
| ret_success f rs : In (f, rs) returns_of -> In Success rs -> returns f MPI_SUCCESS
| ret_value f rs n : In (f, rs) returns_of -> In (Value n) rs -> returns f n
| ret_call f rs g v : In (f, rs) returns_of -> In (Of g) rs -> returns g v -> returns f v.
(** [stores f v]: the Fortran entry point [f] can store [v] in ierror (e.g. mpi.c 226). *)
Inductive stores : string -> Z -> Prop :=
| st_success f : In (f, Success) ierror_of -> stores f MPI_SUCCESS
| st_value f n : In (f, Value n) ierror_of -> stores f n
| st_call f g v : In (f, Of g) ierror_of -> returns g v -> stores f v.
