(** Who calls what, and what a routine of MPI can do through others (C107).  Says nothing about how that is checked. *)
From Verif Require Import Base LinkModel LinkSpec.
From Coq Require Import Relations.
#[local] Open Scope nat_scope.
#[local] Open Scope string_scope.

(** A call of the routine can lead to a call of [s]: it, or one it leads to, calls [s] (e.g. send.c 70 and copy.c 85). *)
Definition may_use (m : mangling) (lib : list fn) (f : fn) (s : string) : Prop :=
  exists g, clos_refl_trans fn (calls m lib) f g /\ In (C s) (fn_calls g).

(** Routines that can make a handle (mpi_alloc_handle, handles.c 178). *)
Definition making : list string := [
  "MPI_Cart_create"; "MPI_Comm_dup"; "MPI_Comm_create"; "MPI_Comm_split"; "MPI_Intercomm_create"; "MPI_Init_thread"; "MPI_Init"; "MPI_Irecv";
  "MPI_Recv"; "MPI_Isend"; "MPI_Send"; "MPI_Ssend"; "MPI_Rsend"; "MPI_Irsend"; "MPI_Sendrecv"; "MPI_Type_struct"; "MPI_Type_contiguous";
  "MPI_Type_hvector"; "MPI_Type_create_hvector"; "MPI_Type_vector"; "MPI_Type_hindexed"; "MPI_Type_indexed"; "MPI_Type_create_indexed_block"].
(** Routines that can end a handle (mpi_free_handle, handles.c 270). *)
Definition ending : list string := [
  "MPI_Comm_free"; "MPI_Recv"; "MPI_Test"; "MPI_Wait"; "MPI_Waitany"; "MPI_Testany"; "MPI_Testall"; "MPI_Waitall"; "MPI_Testsome"; "MPI_Waitsome";
  "MPI_Request_free"; "MPI_Send"; "MPI_Ssend"; "MPI_Rsend"; "MPI_Sendrecv"; "MPI_Type_free"].
(** Routines that can release storage (free, e.g. list.c 180). *)
Definition releasing : list string := [
  "MPI_Comm_free"; "MPI_Finalize"; "MPI_Irecv"; "MPI_Recv"; "MPI_Isend"; "MPI_Send"; "MPI_Ssend"; "MPI_Rsend"; "MPI_Irsend"; "MPI_Sendrecv";
  "MPI_Type_free"].
(** Routines that can copy data (memcpy, copy.c 85, pack.c 54 and 143). *)
Definition copying : list string := [
  "MPI_Gather"; "MPI_Gatherv"; "MPI_Allgather"; "MPI_Allgatherv"; "MPI_Scatter"; "MPI_Scatterv"; "MPI_Reduce"; "MPI_Allreduce"; "MPI_Reduce_scatter";
  "MPI_Scan"; "MPI_Alltoall"; "MPI_Alltoallv"; "MPI_Alltoallw"; "MPI_Pack"; "MPI_Unpack"; "MPI_Irecv"; "MPI_Recv"; "MPI_Isend"; "MPI_Send";
  "MPI_Ssend"; "MPI_Rsend"; "MPI_Irsend"; "MPI_Sendrecv"].
(** Routines that can write to the terminal (printf, fprintf, perror; e.g. cart.c 27). *)
Definition writing : list string := [
  "MPI_Cart_create"; "MPI_Cart_coords"; "MPI_Dims_create"; "MPI_Bcast"; "MPI_Gather"; "MPI_Gatherv"; "MPI_Allgather"; "MPI_Allgatherv";
  "MPI_Scatter"; "MPI_Scatterv"; "MPI_Reduce"; "MPI_Allreduce"; "MPI_Reduce_scatter"; "MPI_Scan"; "MPI_Alltoall"; "MPI_Alltoallv"; "MPI_Alltoallw";
  "MPI_Comm_free"; "MPI_Comm_dup"; "MPI_Comm_create"; "MPI_Comm_split"; "MPI_Intercomm_create"; "MPI_Group_incl"; "MPI_Group_range_incl";
  "MPI_Group_union"; "MPI_Group_intersection"; "MPI_Group_difference"; "MPI_Group_translate_ranks"; "MPI_Init_thread"; "MPI_Init"; "MPI_Abort";
  "MPI_Pack"; "MPI_Pack_size"; "MPI_Unpack"; "MPI_Iprobe"; "MPI_Probe"; "MPI_Irecv"; "MPI_Recv"; "MPI_Test"; "MPI_Wait"; "MPI_Waitany";
  "MPI_Testany"; "MPI_Testall"; "MPI_Waitall"; "MPI_Testsome"; "MPI_Waitsome"; "MPI_Request_free"; "MPI_Isend"; "MPI_Send"; "MPI_Ssend"; "MPI_Rsend";
  "MPI_Irsend"; "MPI_Sendrecv"; "MPI_Wtime"; "MPI_Type_extent"; "MPI_Type_struct"; "MPI_Type_contiguous"; "MPI_Type_hvector";
  "MPI_Type_create_hvector"; "MPI_Type_vector"; "MPI_Type_hindexed"; "MPI_Type_indexed"; "MPI_Type_create_indexed_block"; "MPI_Type_size";
  "MPI_Type_free"].

(** Every name called anywhere in the library, with the routines that call it (cart.c 14 to fort.F90 68, e.g. malloc: handles.c 83, list.c 37 and 127, type.c 311 and 672). *)
Definition callers : list (nm * list string) := [
  (C "abort", ["MPI_Cart_create"; "MPI_Cart_coords"; "MPI_Dims_create"; "MPI_Bcast"; "MPI_Gather"; "MPI_Gatherv"; "MPI_Scatter"; "MPI_Scatterv"; "MPI_Reduce"; "MPI_Group_incl"; "MPI_Group_range_incl"; "MPI_Group_union"; "MPI_Group_intersection"; "MPI_Group_difference"; "MPI_Group_translate_ranks"; "mpi_malloc"; "mpi_alloc_handle"; "mpi_free_handle"; "AP_listitem_malloc"; "AP_list_new"; "AP_list_free"; "mpi_init_fort"; "MPI_Init"; "mpi_get_library_version"; "MPI_Iprobe"; "MPI_Probe"; "MPI_Irecv"; "MPI_Wait"; "MPI_Waitany"; "MPI_Waitall"; "MPI_Waitsome"; "MPI_Isend"; "MPI_Irsend"; "MPI_Wtime"]);
  (C "AP_list_append", ["MPI_Irecv"; "MPI_Isend"]);
  (C "AP_list_delete_item", ["AP_list_delete"; "MPI_Irecv"; "MPI_Isend"]);
  (C "AP_list_free", ["MPI_Comm_free"]);
  (C "AP_list_new", ["mpi_comm_new"; "AP_list_duplicate"]);
  (C "AP_list_next", ["AP_list_braindead_next"]);
  (C "AP_list_search", ["AP_list_delete"]);
  (C "AP_list_search_func", ["MPI_Iprobe"; "MPI_Irecv"; "MPI_Isend"]);
  (C "AP_list_size", ["MPI_Comm_free"]);
  (C "AP_listitem_data", ["MPI_Iprobe"; "MPI_Irecv"; "MPI_Isend"]);
  (C "AP_listitem_free", ["AP_list_free"; "AP_list_delete_item"]);
  (C "AP_listitem_malloc", ["AP_list_prepend"; "AP_list_append"; "AP_list_duplicate"]);
  (C "calc_lb", ["Type_get_true_extent"; "Type_struct"]);
  (C "calc_padding", ["Type_extent"; "Type_get_true_extent"]);
  (C "calc_ub", ["Type_get_true_extent"; "Type_struct"]);
  (C "copy_data2", ["MPI_Gather"; "MPI_Gatherv"; "MPI_Allgather"; "MPI_Allgatherv"; "MPI_Scatter"; "MPI_Scatterv"; "MPI_Reduce"; "MPI_Allreduce"; "MPI_Reduce_scatter"; "MPI_Scan"; "MPI_Alltoall"; "MPI_Alltoallv"; "MPI_Alltoallw"; "MPI_Irecv"; "MPI_Isend"]);
  (C "Copy_type", ["Type_struct"; "Type_dup"]);
  (C "exit", ["Pcopy_data2"; "MPI_Abort"; "Pack"; "Unpack"; "Simpletype_length"]);
  (C "FGet_address", ["mpi_get_address"; "mpi_address"]);
  (C "fprintf", ["MPI_Bcast"; "MPI_Gather"; "MPI_Gatherv"; "MPI_Scatter"; "MPI_Scatterv"; "MPI_Reduce"; "MPI_Comm_free"; "Pcopy_data2"; "MPI_Group_incl"; "MPI_Group_range_incl"; "MPI_Group_union"; "MPI_Group_intersection"; "MPI_Group_difference"; "MPI_Group_translate_ranks"; "mpi_malloc"; "mpi_alloc_handle"; "mpi_free_handle"; "AP_listitem_verify"; "AP_list_free"; "mpi_init_fort"; "MPI_Init"; "MPI_Abort"; "MPI_Iprobe"; "MPI_Probe"; "MPI_Irecv"; "MPI_Wait"; "MPI_Waitany"; "MPI_Waitall"; "MPI_Waitsome"; "MPI_Isend"; "MPI_Irsend"; "MPI_Wtime"]);
  (C "free", ["mpi_free"; "AP_listitem_free"; "AP_list_free"; "MPI_Type_free"]);
  (C "gethostname", ["MPI_Get_processor_name"]);
  (C "gettimeofday", ["MPI_Wtime"]);
  (C "init_block", ["init_handles"; "mpi_alloc_handle"]);
  (C "init_handles", ["mpi_alloc_handle"; "mpi_handle_to_ptr"]);
  (C "malloc", ["mpi_malloc"; "AP_listitem_malloc"; "AP_list_new"; "Type_struct"; "Type_dup"]);
  (C "memcpy", ["Pcopy_data2"; "Pack"; "Unpack"]);
  (C "memset", ["mpi_get_library_version"]);
  (C "mpi_alloc_handle", ["mpi_comm_new"; "MPI_Irecv"; "MPI_Isend"; "MPI_Type_struct"; "MPI_Type_contiguous"; "MPI_Type_hvector"; "MPI_Type_create_hvector"; "MPI_Type_vector"; "MPI_Type_hindexed"; "MPI_Type_indexed"; "MPI_Type_create_indexed_block"]);
  (C "mpi_c_in_place", ["mpi_gather"; "mpi_gatherv"; "mpi_allgather"; "mpi_allgatherv"; "mpi_scatter"; "mpi_scatterv"]);
  (C "mpi_c_status", ["mpi_iprobe"; "mpi_probe"; "mpi_recv"; "mpi_test"; "mpi_wait"; "mpi_waitany"; "mpi_testany"; "mpi_sendrecv"]);
  (C "mpi_c_statuses", ["mpi_testall"; "mpi_waitall"; "mpi_testsome"; "mpi_waitsome"]);
  (C "mpi_comm_new", ["MPI_Comm_dup"; "MPI_Comm_create"; "MPI_Comm_split"; "MPI_Init"]);
  (C "mpi_destroy_handles", ["MPI_Finalize"]);
  (C "mpi_free", ["mpi_destroy_handles"]);
  (C "mpi_free_handle", ["MPI_Comm_free"; "MPI_Test"; "MPI_Request_free"; "MPI_Type_free"]);
  (F "mpi_get_fort_pointers" "MPI_GET_FORT_POINTERS", ["MPI_Init"]);
  (C "mpi_handle_to_datatype", ["copy_data2"; "MPI_Get_elements"; "mpi_init_fort"; "MPI_Pack"; "MPI_Pack_size"; "MPI_Unpack"; "MPI_Type_extent"; "MPI_Type_struct"; "MPI_Type_contiguous"; "MPI_Type_hvector"; "MPI_Type_create_hvector"; "MPI_Type_vector"; "MPI_Type_hindexed"; "MPI_Type_indexed"; "MPI_Type_create_indexed_block"; "MPI_Type_size"; "MPI_Type_lb"; "MPI_Type_ub"; "MPI_Type_commit"; "MPI_Type_free"]);
  (C "mpi_handle_to_ptr", ["MPI_Comm_free"; "MPI_Pack"; "MPI_Pack_size"; "MPI_Unpack"; "MPI_Iprobe"; "MPI_Irecv"; "MPI_Test"; "MPI_Isend"; "MPI_Irsend"; "mpi_handle_to_datatype"]);
  (F "mpi_init" "MPI_INIT", ["mpi_init_thread"]);
  (F "mpi_init_fort" "MPI_INIT_FORT", ["mpi_init"]);
  (C "mpi_malloc", ["mpi_alloc_handle"]);
  (F "mpi_save_fort_pointers" "MPI_SAVE_FORT_POINTERS", ["mpi_get_fort_pointers"]);
  (C "Pack", ["MPI_Pack"]);
  (C "Pack_size", ["MPI_Pack_size"]);
  (C "Pcopy_data2", ["copy_data2"]);
  (C "perror", ["AP_listitem_malloc"; "AP_list_new"]);
  (C "printf", ["MPI_Cart_create"; "MPI_Cart_coords"; "MPI_Dims_create"; "Pcopy_data2"; "AP_list_print"; "AP_list_revprint"; "Pack"; "Pack_size"; "Unpack"; "Simpletype_length"]);
  (C "Simpletype_length", ["Pcopy_data2"; "mpi_init_fort"; "Pack"; "Pack_size"; "Unpack"; "calc_padding"; "calc_ub"; "Type_size"]);
  (C "sprintf", ["MPI_Error_string"]);
  (C "strlen", ["MPI_Error_string"; "MPI_Get_processor_name"; "MPI_Get_library_version"]);
  (C "strncpy", ["MPI_Get_processor_name"; "MPI_Get_library_version"]);
  (C "Type_contiguous", ["MPI_Type_contiguous"]);
  (C "Type_create_indexed_block", ["MPI_Type_create_indexed_block"]);
  (C "Type_extent", ["Pcopy_data2"; "Pack"; "Unpack"; "MPI_Type_extent"; "Type_struct"; "Type_contiguous"; "Type_hvector"; "Type_vector"; "Type_indexed"]);
  (C "Type_hindexed", ["MPI_Type_hindexed"; "Type_indexed"]);
  (C "Type_hvector", ["MPI_Type_hvector"; "MPI_Type_create_hvector"; "Type_vector"]);
  (C "Type_indexed", ["MPI_Type_indexed"; "Type_create_indexed_block"]);
  (C "Type_lb", ["MPI_Type_lb"]);
  (C "Type_size", ["MPI_Type_size"]);
  (C "Type_struct", ["MPI_Type_struct"; "Type_contiguous"; "Type_hvector"; "Type_hindexed"]);
  (C "Type_ub", ["MPI_Type_ub"]);
  (C "Type_vector", ["MPI_Type_vector"]);
  (C "Unpack", ["MPI_Unpack"]);
  (C "MPI_Abort", ["mpi_abort"]);
  (C "MPI_Allgather", ["mpi_allgather"]);
  (C "MPI_Allgatherv", ["mpi_allgatherv"]);
  (C "MPI_Allreduce", ["mpi_allreduce"]);
  (C "MPI_Alltoall", ["mpi_alltoall"]);
  (C "MPI_Alltoallv", ["mpi_alltoallv"]);
  (C "MPI_Alltoallw", ["mpi_alltoallw"]);
  (C "MPI_Barrier", ["mpi_barrier"]);
  (C "MPI_Bcast", ["mpi_bcast"]);
  (C "MPI_Cart_coords", ["mpi_cart_coords"]);
  (C "MPI_Cart_create", ["mpi_cart_create"]);
  (C "MPI_Cart_get", ["mpi_cart_get"]);
  (C "MPI_Comm_create", ["mpi_comm_create"]);
  (C "MPI_Comm_dup", ["MPI_Cart_create"; "mpi_comm_dup"; "MPI_Intercomm_create"]);
  (C "MPI_Comm_free", ["mpi_comm_free"]);
  (C "MPI_Comm_group", ["mpi_comm_group"]);
  (C "MPI_Comm_rank", ["mpi_comm_rank"]);
  (C "MPI_Comm_size", ["mpi_comm_size"]);
  (C "MPI_Comm_split", ["mpi_comm_split"]);
  (C "MPI_Dims_create", ["mpi_dims_create"]);
  (C "MPI_Error_string", ["mpi_error_string"]);
  (C "MPI_Finalize", ["mpi_finalize"]);
  (C "MPI_Gather", ["mpi_gather"]);
  (C "MPI_Gatherv", ["mpi_gatherv"]);
  (C "MPI_Get_address", ["MPI_Address"]);
  (C "MPI_Get_count", ["mpi_get_count"]);
  (C "MPI_Get_elements", ["mpi_get_elements"]);
  (C "MPI_Get_library_version", ["mpi_get_library_version"]);
  (C "MPI_Get_processor_name", ["mpi_get_processor_name"]);
  (C "MPI_Get_Version", ["mpi_get_version"]);
  (C "MPI_Group_difference", ["mpi_group_difference"]);
  (C "MPI_Group_free", ["mpi_group_free"]);
  (C "MPI_Group_incl", ["mpi_group_incl"]);
  (C "MPI_Group_intersection", ["mpi_group_intersection"]);
  (C "MPI_Group_range_incl", ["mpi_group_range_incl"]);
  (C "MPI_Group_translate_ranks", ["mpi_group_translate_ranks"]);
  (C "MPI_Group_union", ["mpi_group_union"]);
  (C "MPI_Info_create", ["mpi_info_create"]);
  (C "MPI_Info_free", ["mpi_info_free"]);
  (C "MPI_Info_set", ["mpi_info_set"]);
  (C "MPI_Init", ["mpi_init_fort"; "MPI_Init_thread"]);
  (C "MPI_Initialized", ["mpi_initialized"]);
  (C "MPI_Intercomm_create", ["mpi_intercomm_create"]);
  (C "MPI_Iprobe", ["mpi_iprobe"; "MPI_Probe"]);
  (C "MPI_Irecv", ["mpi_irecv"; "MPI_Recv"; "MPI_Sendrecv"]);
  (C "MPI_Irsend", ["mpi_irsend"]);
  (C "MPI_Isend", ["mpi_isend"; "MPI_Send"; "MPI_Irsend"]);
  (C "MPI_Op_create", ["mpi_op_create"]);
  (C "MPI_Op_free", ["mpi_op_free"]);
  (C "MPI_Pack", ["mpi_pack"]);
  (C "MPI_Pack_size", ["mpi_pack_size"]);
  (C "MPI_Probe", ["mpi_probe"]);
  (C "MPI_Recv", ["mpi_recv"]);
  (C "MPI_Reduce", ["mpi_reduce"]);
  (C "MPI_Reduce_scatter", ["mpi_reduce_scatter"]);
  (C "MPI_Request_free", ["mpi_request_free"]);
  (C "MPI_Scan", ["mpi_scan"]);
  (C "MPI_Scatter", ["mpi_scatter"]);
  (C "MPI_Scatterv", ["mpi_scatterv"]);
  (C "MPI_Send", ["mpi_send"; "mpi_ssend"; "MPI_Ssend"; "mpi_rsend"; "MPI_Rsend"; "MPI_Sendrecv"]);
  (C "MPI_Sendrecv", ["mpi_sendrecv"]);
  (C "MPI_Test", ["mpi_test"; "MPI_Wait"; "MPI_Testany"; "MPI_Testall"; "MPI_Waitall"; "MPI_Testsome"]);
  (C "MPI_Testall", ["mpi_testall"]);
  (C "MPI_Testany", ["MPI_Waitany"; "mpi_testany"]);
  (C "MPI_Testsome", ["mpi_testsome"; "MPI_Waitsome"]);
  (C "MPI_Type_commit", ["mpi_type_commit"]);
  (C "MPI_Type_contiguous", ["mpi_type_contiguous"]);
  (C "MPI_Type_create_hvector", ["mpi_type_create_hvector"]);
  (C "MPI_Type_create_indexed_block", ["mpi_type_create_indexed_block"]);
  (C "MPI_Type_extent", ["MPI_Gatherv"; "MPI_Allgatherv"; "MPI_Scatterv"; "MPI_Alltoallv"; "mpi_type_extent"]);
  (C "MPI_Type_free", ["mpi_type_free"]);
  (C "MPI_Type_hindexed", ["mpi_type_hindexed"]);
  (C "MPI_Type_hvector", ["mpi_type_hvector"]);
  (C "MPI_Type_indexed", ["mpi_type_indexed"]);
  (C "MPI_Type_lb", ["mpi_type_lb"]);
  (C "MPI_Type_size", ["mpi_type_size"]);
  (C "MPI_Type_struct", ["mpi_type_struct"]);
  (C "MPI_Type_ub", ["mpi_type_ub"]);
  (C "MPI_Type_vector", ["mpi_type_vector"]);
  (C "MPI_Unpack", ["mpi_unpack"]);
  (C "MPI_Wait", ["MPI_Recv"; "mpi_wait"; "MPI_Send"; "MPI_Sendrecv"]);
  (C "MPI_Waitall", ["mpi_waitall"]);
  (C "MPI_Waitany", ["mpi_waitany"]);
  (C "MPI_Waitsome", ["mpi_waitsome"]);
  (C "MPI_Wtime", ["mpi_wtime"])
].
