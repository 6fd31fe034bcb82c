(** How the library is put together: where its routines stand in its files and where they use each other, which headers are included, which files
    the makefile compiles, and how configure names Fortran routines (C109, C110, C111).

    Only names and lines are modelled here.  Macros with calls in them (mpi.c 74-119) are replaced by these calls; text under an #ifdef is marked with its macro. *)
From Verif Require Import Base LinkModel.
#[local] Open Scope string_scope.
#[local] Open Scope list_scope.

(** A use of a name (a call, or a routine passed to another one): line, name, and the macro without which the line is not compiled (e.g. recv.c 75 and recv.c 101-103). *)
Record use := mkUse { u_line : Z; u_name : nm; u_when : option string }.
(** A routine: file, name, first and last line, the macro without which it is not compiled, and what it uses, line by line (e.g. copy.c 31-37, recv.c 145-166). *)
Record place := mkPl { p_file : string; p_name : nm; p_first : Z; p_last : Z; p_when : option string; p_uses : list use }.
(** The routines of the C files, with all #ifdefs; each line cites its own (cart.c 10 to type.c 865).  type_const.c has none. *)
Definition places : list place := [
  mkPl "cart.c" (F "mpi_cart_create" "MPI_CART_CREATE") 10 17 None [mkUse 14 (C "MPI_Cart_create") None]; (* cart.c 10-17 *)
  mkPl "cart.c" (C "MPI_Cart_create") 20 34 None [mkUse 27 (C "printf") None; mkUse 28 (C "abort") None; mkUse 31 (C "MPI_Comm_dup") None]; (* cart.c 20-34 *)
  mkPl "cart.c" (F "mpi_cart_get" "MPI_CART_GET") 48 54 None [mkUse 52 (C "MPI_Cart_get") None]; (* cart.c 48-54 *)
  mkPl "cart.c" (C "MPI_Cart_get") 57 67 None []; (* cart.c 57-67 *)
  mkPl "cart.c" (F "mpi_cart_coords" "MPI_CART_COORDS") 79 84 None [mkUse 82 (C "MPI_Cart_coords") None]; (* cart.c 79-84 *)
  mkPl "cart.c" (C "MPI_Cart_coords") 87 101 None [mkUse 93 (C "printf") None; mkUse 94 (C "abort") None]; (* cart.c 87-101 *)
  mkPl "cart.c" (F "mpi_dims_create" "MPI_DIMS_CREATE") 111 116 None [mkUse 114 (C "MPI_Dims_create") None]; (* cart.c 111-116 *)
  mkPl "cart.c" (C "MPI_Dims_create") 119 133 None [mkUse 125 (C "printf") None; mkUse 126 (C "abort") None]; (* cart.c 119-133 *)
  mkPl "collective.c" (F "mpi_barrier" "MPI_BARRIER") 11 15 None [mkUse 13 (C "MPI_Barrier") None]; (* collective.c 11-15 *)
  mkPl "collective.c" (C "MPI_Barrier") 18 21 None []; (* collective.c 18-21 *)
  mkPl "collective.c" (F "mpi_bcast" "MPI_BCAST") 27 32 None [mkUse 30 (C "MPI_Bcast") None]; (* collective.c 27-32 *)
  mkPl "collective.c" (C "MPI_Bcast") 36 50 None [mkUse 44 (C "fprintf") None; mkUse 45 (C "abort") None]; (* collective.c 36-50 *)
  mkPl "collective.c" (F "mpi_gather" "MPI_GATHER") 56 65 None [mkUse 61 (C "MPI_Gather") None; mkUse 61 (C "mpi_c_in_place") None]; (* collective.c 56-65 *)
  mkPl "collective.c" (C "MPI_Gather") 68 89 None [mkUse 80 (C "fprintf") None; mkUse 81 (C "abort") None; mkUse 84 (C "copy_data2") None]; (* collective.c 68-89 *)
  mkPl "collective.c" (F "mpi_gatherv" "MPI_GATHERV") 95 104 None [mkUse 100 (C "MPI_Gatherv") None; mkUse 100 (C "mpi_c_in_place") None]; (* collective.c 95-104 *)
  mkPl "collective.c" (C "MPI_Gatherv") 107 135 None [mkUse 122 (C "fprintf") None; mkUse 123 (C "abort") None; mkUse 126 (C "MPI_Type_extent") None; mkUse 129 (C "copy_data2") None]; (* collective.c 107-135 *)
  mkPl "collective.c" (F "mpi_allgather" "MPI_ALLGATHER") 142 151 None [mkUse 147 (C "MPI_Allgather") None; mkUse 147 (C "mpi_c_in_place") None]; (* collective.c 142-151 *)
  mkPl "collective.c" (C "MPI_Allgather") 154 167 None [mkUse 161 (C "copy_data2") None]; (* collective.c 154-167 *)
  mkPl "collective.c" (F "mpi_allgatherv" "MPI_ALLGATHERV") 173 182 None [mkUse 178 (C "MPI_Allgatherv") None; mkUse 178 (C "mpi_c_in_place") None]; (* collective.c 173-182 *)
  mkPl "collective.c" (C "MPI_Allgatherv") 185 204 None [mkUse 195 (C "MPI_Type_extent") None; mkUse 198 (C "copy_data2") None]; (* collective.c 185-204 *)
  mkPl "collective.c" (F "mpi_scatter" "MPI_SCATTER") 214 223 None [mkUse 219 (C "MPI_Scatter") None; mkUse 220 (C "mpi_c_in_place") None]; (* collective.c 214-223 *)
  mkPl "collective.c" (C "MPI_Scatter") 225 245 None [mkUse 237 (C "fprintf") None; mkUse 238 (C "abort") None; mkUse 241 (C "copy_data2") None]; (* collective.c 225-245 *)
  mkPl "collective.c" (F "mpi_scatterv" "MPI_SCATTERV") 252 261 None [mkUse 257 (C "MPI_Scatterv") None; mkUse 258 (C "mpi_c_in_place") None]; (* collective.c 252-261 *)
  mkPl "collective.c" (C "MPI_Scatterv") 265 291 None [mkUse 280 (C "fprintf") None; mkUse 281 (C "abort") None; mkUse 283 (C "MPI_Type_extent") None; mkUse 286 (C "copy_data2") None]; (* collective.c 265-291 *)
  mkPl "collective.c" (F "mpi_reduce" "MPI_REDUCE") 298 306 None [mkUse 303 (C "MPI_Reduce") None]; (* collective.c 298-306 *)
  mkPl "collective.c" (C "MPI_Reduce") 310 324 None [mkUse 316 (C "fprintf") None; mkUse 317 (C "abort") None; mkUse 320 (C "copy_data2") None]; (* collective.c 310-324 *)
  mkPl "collective.c" (F "mpi_allreduce" "MPI_ALLREDUCE") 330 338 None [mkUse 334 (C "MPI_Allreduce") None]; (* collective.c 330-338 *)
  mkPl "collective.c" (C "MPI_Allreduce") 341 352 None [mkUse 347 (C "copy_data2") None]; (* collective.c 341-352 *)
  mkPl "collective.c" (F "mpi_reduce_scatter" "MPI_REDUCE_SCATTER") 363 369 None [mkUse 367 (C "MPI_Reduce_scatter") None]; (* collective.c 363-369 *)
  mkPl "collective.c" (C "MPI_Reduce_scatter") 372 377 None [mkUse 375 (C "copy_data2") None]; (* collective.c 372-377 *)
  mkPl "collective.c" (F "mpi_scan" "MPI_SCAN") 383 391 None [mkUse 388 (C "MPI_Scan") None]; (* collective.c 383-391 *)
  mkPl "collective.c" (C "MPI_Scan") 395 401 None [mkUse 398 (C "copy_data2") None]; (* collective.c 395-401 *)
  mkPl "collective.c" (F "mpi_alltoall" "MPI_ALLTOALL") 406 415 None [mkUse 411 (C "MPI_Alltoall") None]; (* collective.c 406-415 *)
  mkPl "collective.c" (C "MPI_Alltoall") 418 426 None [mkUse 422 (C "copy_data2") None]; (* collective.c 418-426 *)
  mkPl "collective.c" (F "mpi_alltoallv" "MPI_ALLTOALLV") 432 443 None [mkUse 438 (C "MPI_Alltoallv") None]; (* collective.c 432-443 *)
  mkPl "collective.c" (C "MPI_Alltoallv") 445 471 None [mkUse 457 (C "MPI_Type_extent") None; mkUse 458 (C "MPI_Type_extent") None; mkUse 463 (C "copy_data2") None]; (* collective.c 445-471 *)
  mkPl "collective.c" (F "mpi_alltoallw" "MPI_ALLTOALLW") 477 488 None [mkUse 483 (C "MPI_Alltoallw") None]; (* collective.c 477-488 *)
  mkPl "collective.c" (C "MPI_Alltoallw") 491 504 None [mkUse 499 (C "copy_data2") None]; (* collective.c 491-504 *)
  mkPl "collective.c" (C "MPI_Op_f2c") 510 513 None []; (* collective.c 510-513 *)
  mkPl "collective.c" (C "MPI_Op_c2f") 519 522 None []; (* collective.c 519-522 *)
  mkPl "comm.c" (C "mpi_comm_new") 13 27 None [mkUse 19 (C "mpi_alloc_handle") None; mkUse 21 (C "AP_list_new") None; mkUse 22 (C "AP_list_new") None]; (* comm.c 13-27 *)
  mkPl "comm.c" (F "mpi_comm_free" "MPI_COMM_FREE") 33 37 None [mkUse 35 (C "MPI_Comm_free") None]; (* comm.c 33-37 *)
  mkPl "comm.c" (C "MPI_Comm_free") 50 78 None [mkUse 56 (C "mpi_handle_to_ptr") None; mkUse 61 (C "AP_list_size") None; mkUse 63 (C "fprintf") None; mkUse 65 (C "AP_list_free") None; mkUse 68 (C "AP_list_size") None; mkUse 70 (C "fprintf") None; mkUse 72 (C "AP_list_free") None; mkUse 74 (C "mpi_free_handle") None]; (* comm.c 50-78 *)
  mkPl "comm.c" (F "mpi_comm_size" "MPI_COMM_SIZE") 85 89 None [mkUse 87 (C "MPI_Comm_size") None]; (* comm.c 85-89 *)
  mkPl "comm.c" (C "MPI_Comm_size") 93 98 None []; (* comm.c 93-98 *)
  mkPl "comm.c" (F "mpi_comm_rank" "MPI_COMM_RANK") 104 108 None [mkUse 106 (C "MPI_Comm_rank") None]; (* comm.c 104-108 *)
  mkPl "comm.c" (C "MPI_Comm_rank") 111 116 None []; (* comm.c 111-116 *)
  mkPl "comm.c" (F "mpi_comm_dup" "MPI_COMM_DUP") 123 129 None [mkUse 126 (C "MPI_Comm_dup") None]; (* comm.c 123-129 *)
  mkPl "comm.c" (C "MPI_Comm_dup") 132 142 None [mkUse 134 (C "mpi_comm_new") None; mkUse 137 (C "fflush") (Some "INFO"); mkUse 138 (C "fprintf") (Some "INFO")]; (* comm.c 132-142 *)
  mkPl "comm.c" (F "mpi_comm_create" "MPI_COMM_CREATE") 148 153 None [mkUse 151 (C "MPI_Comm_create") None]; (* comm.c 148-153 *)
  mkPl "comm.c" (C "MPI_Comm_create") 157 165 None [mkUse 162 (C "mpi_comm_new") None]; (* comm.c 157-165 *)
  mkPl "comm.c" (F "mpi_comm_split" "MPI_COMM_SPLIT") 172 178 None [mkUse 175 (C "MPI_Comm_split") None]; (* comm.c 172-178 *)
  mkPl "comm.c" (C "MPI_Comm_split") 182 190 None [mkUse 187 (C "mpi_comm_new") None]; (* comm.c 182-190 *)
  mkPl "comm.c" (F "mpi_comm_group" "MPI_COMM_GROUP") 196 201 None [mkUse 199 (C "MPI_Comm_group") None]; (* comm.c 196-201 *)
  mkPl "comm.c" (C "MPI_Comm_group") 205 213 None []; (* comm.c 205-213 *)
  mkPl "comm.c" (F "mpi_intercomm_create" "MPI_INTERCOMM_CREATE") 219 227 None [mkUse 224 (C "MPI_Intercomm_create") None]; (* comm.c 219-227 *)
  mkPl "comm.c" (C "MPI_Intercomm_create") 229 239 None [mkUse 236 (C "MPI_Comm_dup") None]; (* comm.c 229-239 *)
  mkPl "comm.c" (C "MPI_Comm_f2c") 245 249 None []; (* comm.c 245-249 *)
  mkPl "comm.c" (C "MPI_Comm_c2f") 252 255 None []; (* comm.c 252-255 *)
  mkPl "copy.c" (C "copy_data2") 30 37 None [mkUse 33 (C "mpi_handle_to_datatype") None; mkUse 34 (C "mpi_handle_to_datatype") None; mkUse 36 (C "Pcopy_data2") None]; (* copy.c 30-37 *)
  mkPl "copy.c" (C "Pcopy_data2") 42 88 None [mkUse 54 (C "fprintf") None; mkUse 55 (C "exit") None; mkUse 63 (C "printf") None; mkUse 64 (C "exit") None; mkUse 67 (C "Type_extent") None; mkUse 68 (C "Type_extent") None; mkUse 77 (C "printf") (Some "TYPE_CHECKING"); mkUse 78 (C "exit") (Some "TYPE_CHECKING"); mkUse 85 (C "memcpy") None; mkUse 85 (C "Simpletype_length") None]; (* copy.c 42-88 *)
  mkPl "error.c" (C "MPI_Errhandler_set") 10 13 None []; (* error.c 10-13 *)
  mkPl "getcount.c" (F "mpi_get_count" "MPI_GET_COUNT") 11 16 None [mkUse 14 (C "MPI_Get_count") None]; (* getcount.c 11-16 *)
  mkPl "getcount.c" (C "MPI_Get_count") 19 23 None []; (* getcount.c 19-23 *)
  mkPl "getcount.c" (F "mpi_get_elements" "MPI_GET_ELEMENTS") 29 34 None [mkUse 32 (C "MPI_Get_elements") None]; (* getcount.c 29-34 *)
  mkPl "getcount.c" (C "MPI_Get_elements") 37 42 None [mkUse 39 (C "mpi_handle_to_datatype") None]; (* getcount.c 37-42 *)
  mkPl "group.c" (F "mpi_group_incl" "MPI_GROUP_INCL") 8 13 None [mkUse 11 (C "MPI_Group_incl") None]; (* group.c 8-13 *)
  mkPl "group.c" (C "MPI_Group_incl") 16 37 None [mkUse 21 (C "fprintf") None; mkUse 22 (C "abort") None; mkUse 32 (C "fprintf") None; mkUse 33 (C "abort") None]; (* group.c 16-37 *)
  mkPl "group.c" (F "mpi_group_range_incl" "MPI_GROUP_RANGE_INCL") 50 55 None [mkUse 53 (C "MPI_Group_range_incl") None]; (* group.c 50-55 *)
  mkPl "group.c" (C "MPI_Group_range_incl") 58 80 None [mkUse 64 (C "fprintf") None; mkUse 65 (C "abort") None; mkUse 75 (C "fprintf") None; mkUse 76 (C "abort") None]; (* group.c 58-80 *)
  mkPl "group.c" (F "mpi_group_union" "MPI_GROUP_UNION") 89 94 None [mkUse 92 (C "MPI_Group_union") None]; (* group.c 89-94 *)
  mkPl "group.c" (C "MPI_Group_union") 98 114 None [mkUse 103 (C "fprintf") None; mkUse 104 (C "abort") None]; (* group.c 98-114 *)
  mkPl "group.c" (F "mpi_group_intersection" "MPI_GROUP_INTERSECTION") 120 125 None [mkUse 123 (C "MPI_Group_intersection") None]; (* group.c 120-125 *)
  mkPl "group.c" (C "MPI_Group_intersection") 129 146 None [mkUse 135 (C "fprintf") None; mkUse 136 (C "abort") None]; (* group.c 129-146 *)
  mkPl "group.c" (F "mpi_group_difference" "MPI_GROUP_DIFFERENCE") 153 158 None [mkUse 156 (C "MPI_Group_difference") None]; (* group.c 153-158 *)
  mkPl "group.c" (C "MPI_Group_difference") 162 178 None [mkUse 168 (C "fprintf") None; mkUse 169 (C "abort") None]; (* group.c 162-178 *)
  mkPl "group.c" (F "mpi_group_free" "MPI_GROUP_FREE") 185 189 None [mkUse 187 (C "MPI_Group_free") None]; (* group.c 185-189 *)
  mkPl "group.c" (C "MPI_Group_free") 192 197 None []; (* group.c 192-197 *)
  mkPl "group.c" (F "mpi_group_translate_ranks" "MPI_GROUP_TRANSLATE_RANKS") 204 210 None [mkUse 208 (C "MPI_Group_translate_ranks") None]; (* group.c 204-210 *)
  mkPl "group.c" (C "MPI_Group_translate_ranks") 214 252 None [mkUse 221 (C "fprintf") None; mkUse 222 (C "abort") None; mkUse 230 (C "fprintf") None; mkUse 231 (C "abort") None; mkUse 238 (C "fprintf") None; mkUse 240 (C "abort") None]; (* group.c 214-252 *)
  mkPl "group.c" (C "MPI_Group_f2c") 258 261 None []; (* group.c 258-261 *)
  mkPl "group.c" (C "MPI_Group_c2f") 267 270 None []; (* group.c 267-270 *)
  mkPl "handles.c" (C "mpi_malloc") 79 92 None [mkUse 83 (C "malloc") None; mkUse 87 (C "fprintf") None; mkUse 88 (C "abort") None]; (* handles.c 79-92 *)
  mkPl "handles.c" (C "mpi_free") 95 98 None [mkUse 97 (C "free") None]; (* handles.c 95-98 *)
  mkPl "handles.c" (C "init_block") 110 124 None []; (* handles.c 110-124 *)
  mkPl "handles.c" (C "init_handles") 129 157 None [mkUse 139 (C "init_block") None]; (* handles.c 129-157 *)
  mkPl "handles.c" (C "mpi_destroy_handles") 161 172 None [mkUse 169 (C "mpi_free") None]; (* handles.c 161-172 *)
  mkPl "handles.c" (C "mpi_alloc_handle") 178 225 None [mkUse 183 (C "init_handles") None; mkUse 203 (C "fprintf") None; mkUse 205 (C "abort") None; mkUse 208 (C "mpi_malloc") None; mkUse 209 (C "init_block") None; mkUse 220 (C "fflush") (Some "HANDLE_INFO"); mkUse 221 (C "fprintf") (Some "HANDLE_INFO")]; (* handles.c 178-225 *)
  mkPl "handles.c" (C "verify_handle") 230 244 (Some "CHECKS") [mkUse 235 (C "fprintf") None; mkUse 236 (C "abort") None; mkUse 241 (C "fprintf") None; mkUse 242 (C "abort") None]; (* handles.c 230-244 *)
  mkPl "handles.c" (C "mpi_handle_to_ptr") 247 266 None [mkUse 253 (C "init_handles") None; mkUse 262 (C "verify_handle") (Some "CHECKS")]; (* handles.c 247-266 *)
  mkPl "handles.c" (C "mpi_free_handle") 270 309 None [mkUse 281 (C "fprintf") None; mkUse 282 (C "abort") None; mkUse 289 (C "verify_handle") (Some "CHECKS"); mkUse 297 (C "fprintf") (Some "CHECKS"); mkUse 298 (C "abort") (Some "CHECKS")]; (* handles.c 270-309 *)
  mkPl "ic_merge.c" (C "MPI_Intercomm_merge") 11 15 None []; (* ic_merge.c 11-15 *)
  mkPl "info.c" (F "mpi_info_create" "MPI_INFO_CREATE") 9 13 None [mkUse 11 (C "MPI_Info_create") None]; (* info.c 9-13 *)
  mkPl "info.c" (C "MPI_Info_create") 17 22 None []; (* info.c 17-22 *)
  mkPl "info.c" (F "mpi_info_set" "MPI_INFO_SET") 28 32 None [mkUse 30 (C "MPI_Info_set") None]; (* info.c 28-32 *)
  mkPl "info.c" (C "MPI_Info_set") 35 39 None []; (* info.c 35-39 *)
  mkPl "info.c" (C "MPI_Info_free") 44 49 None []; (* info.c 44-49 *)
  mkPl "info.c" (F "mpi_info_free" "MPI_INFO_FREE") 51 55 None [mkUse 53 (C "MPI_Info_free") None]; (* info.c 51-55 *)
  mkPl "list.c" (C "AP_listitem_malloc") 32 46 None [mkUse 37 (C "malloc") None; mkUse 41 (C "perror") None; mkUse 42 (C "abort") None]; (* list.c 32-46 *)
  mkPl "list.c" (C "AP_listitem_free") 57 61 None [mkUse 59 (C "free") None]; (* list.c 57-61 *)
  mkPl "list.c" (C "AP_listitem_verify") 73 84 None [mkUse 76 (C "fprintf") None; mkUse 80 (C "fprintf") None]; (* list.c 73-84 *)
  mkPl "list.c" (C "AP_listitem_prev") 89 92 None []; (* list.c 89-92 *)
  mkPl "list.c" (C "AP_listitem_next") 96 99 None []; (* list.c 96-99 *)
  mkPl "list.c" (C "AP_listitem_data") 104 107 None []; (* list.c 104-107 *)
  mkPl "list.c" (C "AP_list_new") 123 141 None [mkUse 127 (C "malloc") None; mkUse 131 (C "perror") None; mkUse 132 (C "abort") None]; (* list.c 123-141 *)
  mkPl "list.c" (C "AP_list_free") 154 181 None [mkUse 166 (C "AP_listitem_free") None; mkUse 174 (C "fprintf") None; mkUse 176 (C "abort") None; mkUse 180 (C "free") None]; (* list.c 154-181 *)
  mkPl "list.c" (C "AP_list_size") 192 195 None []; (* list.c 192-195 *)
  mkPl "list.c" (C "AP_list_prepend") 206 230 None [mkUse 210 (C "AP_listitem_malloc") None]; (* list.c 206-230 *)
  mkPl "list.c" (C "AP_list_append") 241 263 None [mkUse 245 (C "AP_listitem_malloc") None]; (* list.c 241-263 *)
  mkPl "list.c" (C "AP_list_delete") 276 287 None [mkUse 280 (C "AP_list_search") None; mkUse 282 (C "AP_list_delete_item") None]; (* list.c 276-287 *)
  mkPl "list.c" (C "AP_list_delete_item") 291 318 None [mkUse 297 (C "fprintf") (Some "CHECKS"); mkUse 298 (C "abort") (Some "CHECKS"); mkUse 316 (C "AP_listitem_free") None]; (* list.c 291-318 *)
  mkPl "list.c" (C "AP_list_head_item") 323 326 None []; (* list.c 323-326 *)
  mkPl "list.c" (C "AP_list_head") 330 339 None []; (* list.c 330-339 *)
  mkPl "list.c" (C "AP_list_tail") 343 352 None []; (* list.c 343-352 *)
  mkPl "list.c" (C "AP_list_print") 366 380 None [mkUse 370 (C "printf") None; mkUse 375 (C "printf") None; mkUse 379 (C "printf") None]; (* list.c 366-380 *)
  mkPl "list.c" (C "AP_list_revprint") 393 407 None [mkUse 397 (C "printf") None; mkUse 402 (C "printf") None; mkUse 406 (C "printf") None]; (* list.c 393-407 *)
  mkPl "list.c" (C "AP_list_search") 420 435 None []; (* list.c 420-435 *)
  mkPl "list.c" (C "AP_list_search_func") 446 463 None []; (* list.c 446-463 *)
  mkPl "list.c" (C "AP_list_next") 478 498 None []; (* list.c 478-498 *)
  mkPl "list.c" (C "AP_list_braindead_next") 508 516 None [mkUse 512 (C "AP_list_next") None]; (* list.c 508-516 *)
  mkPl "list.c" (C "AP_list_duplicate") 528 559 None [mkUse 533 (C "AP_list_new") None; mkUse 539 (C "AP_listitem_malloc") None]; (* list.c 528-559 *)
  mkPl "list.c" (C "AP_list_apply") 563 581 None []; (* list.c 563-581 *)
  mkPl "list.c" (C "main") 594 704 (Some "LISTMAIN") [mkUse 601 (C "AP_list_new") None; mkUse 605 (C "AP_list_prepend") None; mkUse 606 (C "AP_list_print") None; mkUse 607 (C "AP_list_revprint") None; mkUse 610 (C "printf") None; mkUse 610 (C "AP_list_size") None; mkUse 614 (C "AP_list_append") None; mkUse 615 (C "AP_list_print") None; mkUse 616 (C "AP_list_revprint") None; mkUse 619 (C "AP_list_delete") None; mkUse 620 (C "AP_list_print") None; mkUse 621 (C "AP_list_revprint") None; mkUse 623 (C "AP_list_delete") None; mkUse 624 (C "AP_list_print") None; mkUse 625 (C "AP_list_revprint") None; mkUse 627 (C "AP_list_delete") None; mkUse 628 (C "AP_list_print") None; mkUse 629 (C "AP_list_revprint") None; mkUse 631 (C "AP_list_delete") None; mkUse 632 (C "AP_list_print") None; mkUse 633 (C "AP_list_revprint") None; mkUse 635 (C "AP_list_delete") None; mkUse 636 (C "printf") None; mkUse 638 (C "printf") None; mkUse 639 (C "AP_list_print") None; mkUse 640 (C "AP_list_revprint") None; mkUse 642 (C "AP_list_search") None; mkUse 643 (C "printf") None; mkUse 645 (C "printf") None; mkUse 647 (C "AP_list_search") None; mkUse 648 (C "printf") None; mkUse 650 (C "printf") None; mkUse 652 (C "printf") None; mkUse 654 (C "AP_list_next") None; mkUse 655 (C "printf") None; mkUse 657 (C "printf") None; mkUse 658 (C "AP_list_head_item") None; mkUse 658 (C "AP_listitem_next") None; mkUse 659 (C "printf") None; mkUse 659 (C "AP_listitem_data") None; mkUse 662 (C "AP_list_duplicate") None; mkUse 663 (C "AP_list_print") None; mkUse 664 (C "AP_list_revprint") None; mkUse 665 (C "AP_list_print") None; mkUse 666 (C "AP_list_revprint") None; mkUse 668 (C "AP_list_append") None; mkUse 669 (C "AP_list_print") None; mkUse 670 (C "AP_list_revprint") None; mkUse 673 (C "printf") None; mkUse 675 (C "AP_list_head_item") None; mkUse 677 (C "printf") None; mkUse 677 (C "AP_listitem_data") None; mkUse 679 (C "AP_listitem_next") None; mkUse 683 (C "AP_list_delete_item") None; mkUse 684 (C "printf") None; mkUse 687 (C "printf") None; mkUse 693 (C "AP_list_print") None; mkUse 695 (C "AP_list_free") None; mkUse 696 (C "AP_list_print") None; mkUse 697 (C "AP_list_revprint") None; mkUse 699 (C "AP_list_free") None; mkUse 701 (C "AP_listitem_verify") None]; (* list.c 594-704 *)
  mkPl "mpi.c" (F "mpi_init_fort" "MPI_INIT_FORT") 29 156 None [mkUse 54 (C "MPI_Init") None; mkUse 122 (C "fprintf") None; mkUse 123 (C "fprintf") None; mkUse 124 (C "fprintf") None; mkUse 125 (C "fprintf") None; mkUse 126 (C "fprintf") None; mkUse 127 (C "fprintf") None; mkUse 128 (C "fprintf") None; mkUse 129 (C "fprintf") None; mkUse 130 (C "fprintf") None; mkUse 131 (C "fprintf") None; mkUse 132 (C "fprintf") None; mkUse 133 (C "fprintf") None; mkUse 135 (C "fprintf") None; mkUse 136 (C "fprintf") None; mkUse 137 (C "fprintf") None; mkUse 138 (C "fprintf") None; mkUse 140 (C "fprintf") None; mkUse 141 (C "Simpletype_length") None; mkUse 141 (C "mpi_handle_to_datatype") None; mkUse 141 (C "fprintf") None; mkUse 143 (C "Simpletype_length") None; mkUse 143 (C "mpi_handle_to_datatype") None; mkUse 143 (C "fprintf") None; mkUse 145 (C "fprintf") None; mkUse 146 (C "Simpletype_length") None; mkUse 146 (C "mpi_handle_to_datatype") None; mkUse 146 (C "fprintf") None; mkUse 148 (C "fprintf") None; mkUse 149 (C "Simpletype_length") None; mkUse 149 (C "mpi_handle_to_datatype") None; mkUse 149 (C "fprintf") None; mkUse 151 (C "Simpletype_length") None; mkUse 151 (C "mpi_handle_to_datatype") None; mkUse 151 (C "fprintf") None; mkUse 154 (C "abort") None]; (* mpi.c 29-156 *)
  mkPl "mpi.c" (C "MPI_Init_thread") 158 162 None [mkUse 161 (C "MPI_Init") None]; (* mpi.c 158-162 *)
  mkPl "mpi.c" (C "MPI_Init") 164 189 None [mkUse 170 (C "fprintf") None; mkUse 172 (C "abort") None; mkUse 175 (C "mpi_comm_new") None; mkUse 179 (C "fprintf") None; mkUse 180 (C "abort") None; mkUse 185 (F "mpi_get_fort_pointers" "MPI_GET_FORT_POINTERS") None]; (* mpi.c 164-189 *)
  mkPl "mpi.c" (F "mpi_finalize" "MPI_FINALIZE") 195 199 None [mkUse 197 (C "MPI_Finalize") None]; (* mpi.c 195-199 *)
  mkPl "mpi.c" (C "MPI_Finalize") 211 218 None [mkUse 215 (C "mpi_destroy_handles") None]; (* mpi.c 211-218 *)
  mkPl "mpi.c" (F "mpi_abort" "MPI_ABORT") 224 228 None [mkUse 226 (C "MPI_Abort") None]; (* mpi.c 224-228 *)
  mkPl "mpi.c" (C "MPI_Abort") 232 236 None [mkUse 234 (C "fprintf") None; mkUse 235 (C "exit") None]; (* mpi.c 232-236 *)
  mkPl "mpi.c" (F "mpi_error_string" "MPI_ERROR_STRING") 243 249 None [mkUse 247 (C "MPI_Error_string") None]; (* mpi.c 243-249 *)
  mkPl "mpi.c" (C "MPI_Error_string") 252 258 None [mkUse 254 (C "sprintf") None; mkUse 255 (C "strlen") None]; (* mpi.c 252-258 *)
  mkPl "mpi.c" (F "mpi_get_processor_name" "MPI_GET_PROCESSOR_NAME") 264 269 None [mkUse 267 (C "MPI_Get_processor_name") None]; (* mpi.c 264-269 *)
  mkPl "mpi.c" (C "MPI_Get_processor_name") 272 286 None [mkUse 276 (C "gethostname") None; mkUse 279 (C "strncpy") None; mkUse 283 (C "strlen") None]; (* mpi.c 272-286 *)
  mkPl "mpi.c" (F "mpi_initialized" "MPI_INITIALIZED") 292 296 None [mkUse 294 (C "MPI_Initialized") None]; (* mpi.c 292-296 *)
  mkPl "mpi.c" (C "MPI_Initialized") 299 304 None []; (* mpi.c 299-304 *)
  mkPl "mpi.c" (C "MPI_Get_library_version") 309 318 None [mkUse 312 (C "strncpy") None; mkUse 315 (C "strlen") None]; (* mpi.c 309-318 *)
  mkPl "mpi.c" (F "mpi_get_library_version" "MPI_GET_LIBRARY_VERSION") 321 332 None [mkUse 323 (C "MPI_Get_library_version") None; mkUse 327 (C "abort") None; mkUse 329 (C "memset") None]; (* mpi.c 321-332 *)
  mkPl "mpi.c" (C "MPI_Get_Version") 336 342 None []; (* mpi.c 336-342 *)
  mkPl "mpi.c" (F "mpi_get_version" "MPI_GET_VERSION") 345 351 None [mkUse 347 (C "MPI_Get_Version") None]; (* mpi.c 345-351 *)
  mkPl "mpi.c" (F "mpi_save_fort_pointers" "MPI_SAVE_FORT_POINTERS") 356 361 None []; (* mpi.c 356-361 *)
  mkPl "mpi.c" (C "mpi_c_status") 365 371 None []; (* mpi.c 365-371 *)
  mkPl "mpi.c" (C "mpi_c_statuses") 374 380 None []; (* mpi.c 374-380 *)
  mkPl "mpi.c" (C "mpi_c_in_place") 383 389 None []; (* mpi.c 383-389 *)
  mkPl "op.c" (F "mpi_op_create" "MPI_OP_CREATE") 8 12 None [mkUse 10 (C "MPI_Op_create") None]; (* op.c 8-12 *)
  mkPl "op.c" (C "MPI_Op_create") 14 18 None []; (* op.c 14-18 *)
  mkPl "op.c" (F "mpi_op_free" "MPI_OP_FREE") 20 24 None [mkUse 22 (C "MPI_Op_free") None]; (* op.c 20-24 *)
  mkPl "op.c" (C "MPI_Op_free") 26 29 None []; (* op.c 26-29 *)
  mkPl "pack.c" (F "mpi_pack" "MPI_PACK") 12 19 None [mkUse 16 (C "MPI_Pack") None]; (* pack.c 12-19 *)
  mkPl "pack.c" (C "MPI_Pack") 23 34 None [mkUse 28 (C "mpi_handle_to_datatype") None; mkUse 29 (C "mpi_handle_to_ptr") None; mkUse 31 (C "Pack") None]; (* pack.c 23-34 *)
  mkPl "pack.c" (C "Pack") 38 60 None [mkUse 44 (C "Type_extent") None; mkUse 49 (C "Simpletype_length") None; mkUse 51 (C "printf") None; mkUse 52 (C "exit") None; mkUse 54 (C "memcpy") None; mkUse 55 (C "Simpletype_length") None; mkUse 56 (C "Simpletype_length") None]; (* pack.c 38-60 *)
  mkPl "pack.c" (C "Pack_size") 62 75 None [mkUse 70 (C "Simpletype_length") None; mkUse 73 (C "printf") None]; (* pack.c 62-75 *)
  mkPl "pack.c" (F "mpi_pack_size" "MPI_PACK_SIZE") 77 82 None [mkUse 80 (C "MPI_Pack_size") None]; (* pack.c 77-82 *)
  mkPl "pack.c" (C "MPI_Pack_size") 84 94 None [mkUse 88 (C "mpi_handle_to_datatype") None; mkUse 89 (C "mpi_handle_to_ptr") None; mkUse 91 (C "Pack_size") None]; (* pack.c 84-94 *)
  mkPl "pack.c" (F "mpi_unpack" "MPI_UNPACK") 103 111 None [mkUse 108 (C "MPI_Unpack") None]; (* pack.c 103-111 *)
  mkPl "pack.c" (C "MPI_Unpack") 114 124 None [mkUse 118 (C "mpi_handle_to_datatype") None; mkUse 119 (C "mpi_handle_to_ptr") None; mkUse 121 (C "Unpack") None]; (* pack.c 114-124 *)
  mkPl "pack.c" (C "Unpack") 126 149 None [mkUse 132 (C "Type_extent") None; mkUse 138 (C "Simpletype_length") None; mkUse 140 (C "printf") None; mkUse 141 (C "exit") None; mkUse 143 (C "memcpy") None; mkUse 144 (C "Simpletype_length") None; mkUse 145 (C "Simpletype_length") None]; (* pack.c 126-149 *)
  mkPl "probe.c" (C "mpi_match_send") 4 8 None []; (* probe.c 4-8 *)
  mkPl "probe.c" (F "mpi_iprobe" "MPI_IPROBE") 10 15 None [mkUse 13 (C "MPI_Iprobe") None; mkUse 13 (C "mpi_c_status") None]; (* probe.c 10-15 *)
  mkPl "probe.c" (C "MPI_Iprobe") 21 60 None [mkUse 29 (C "mpi_handle_to_ptr") None; mkUse 32 (C "fflush") (Some "INFO"); mkUse 33 (C "fprintf") (Some "INFO"); mkUse 40 (C "fprintf") None; mkUse 41 (C "abort") None; mkUse 44 (C "AP_list_search_func") None; mkUse 44 (C "mpi_match_send") None; mkUse 50 (C "AP_listitem_data") None]; (* probe.c 21-60 *)
  mkPl "probe.c" (F "mpi_probe" "MPI_PROBE") 66 71 None [mkUse 69 (C "MPI_Probe") None; mkUse 69 (C "mpi_c_status") None]; (* probe.c 66-71 *)
  mkPl "probe.c" (C "MPI_Probe") 75 89 None [mkUse 80 (C "MPI_Iprobe") None; mkUse 84 (C "fprintf") None; mkUse 85 (C "abort") None]; (* probe.c 75-89 *)
  mkPl "recv.c" (C "mpi_match_send") 13 17 None []; (* recv.c 13-17 *)
  mkPl "recv.c" (F "mpi_irecv" "MPI_IRECV") 27 36 None [mkUse 32 (C "MPI_Irecv") None]; (* recv.c 27-36 *)
  mkPl "recv.c" (C "MPI_Irecv") 40 106 None [mkUse 48 (C "mpi_handle_to_ptr") None; mkUse 51 (C "fflush") (Some "INFO"); mkUse 52 (C "fprintf") (Some "INFO"); mkUse 58 (C "fprintf") None; mkUse 59 (C "abort") None; mkUse 62 (C "mpi_alloc_handle") None; mkUse 75 (C "AP_list_search_func") None; mkUse 75 (C "mpi_match_send") None; mkUse 77 (C "AP_listitem_data") None; mkUse 78 (C "AP_list_delete_item") None; mkUse 81 (C "copy_data2") None; mkUse 89 (C "printf") (Some "DEBUG"); mkUse 99 (C "AP_list_append") None; mkUse 102 (C "print_list") (Some "INFO")]; (* recv.c 40-106 *)
  mkPl "recv.c" (F "mpi_recv" "MPI_RECV") 112 119 None [mkUse 116 (C "MPI_Recv") None; mkUse 117 (C "mpi_c_status") None]; (* recv.c 112-119 *)
  mkPl "recv.c" (C "MPI_Recv") 123 141 None [mkUse 129 (C "fflush") (Some "INFO"); mkUse 130 (C "fprintf") (Some "INFO"); mkUse 134 (C "MPI_Irecv") None; mkUse 135 (C "MPI_Wait") None]; (* recv.c 123-141 *)
  mkPl "recv.c" (C "print_item") 147 151 (Some "INFO") [mkUse 149 (C "fprintf") None]; (* recv.c 147-151 *)
  mkPl "recv.c" (C "print_list") 154 163 (Some "INFO") [mkUse 156 (C "fflush") None; mkUse 157 (C "fprintf") None; mkUse 159 (C "AP_list_apply") None; mkUse 159 (C "print_item") None; mkUse 161 (C "fprintf") None]; (* recv.c 154-163 *)
  mkPl "req.c" (F "mpi_test" "MPI_TEST") 10 15 None [mkUse 13 (C "MPI_Test") None; mkUse 13 (C "mpi_c_status") None]; (* req.c 10-15 *)
  mkPl "req.c" (C "MPI_Test") 19 52 None [mkUse 35 (C "mpi_handle_to_ptr") None; mkUse 47 (C "mpi_free_handle") None]; (* req.c 19-52 *)
  mkPl "req.c" (F "mpi_wait" "MPI_WAIT") 56 60 None [mkUse 58 (C "MPI_Wait") None; mkUse 58 (C "mpi_c_status") None]; (* req.c 56-60 *)
  mkPl "req.c" (C "MPI_Wait") 64 77 None [mkUse 68 (C "MPI_Test") None; mkUse 72 (C "fprintf") None; mkUse 73 (C "abort") None]; (* req.c 64-77 *)
  mkPl "req.c" (F "mpi_waitany" "MPI_WAITANY") 83 89 None [mkUse 87 (C "MPI_Waitany") None; mkUse 87 (C "mpi_c_status") None]; (* req.c 83-89 *)
  mkPl "req.c" (C "MPI_Waitany") 93 110 None [mkUse 98 (C "MPI_Testany") None; mkUse 104 (C "fprintf") None; mkUse 105 (C "abort") None]; (* req.c 93-110 *)
  mkPl "req.c" (F "mpi_testany" "MPI_TESTANY") 117 124 None [mkUse 121 (C "MPI_Testany") None; mkUse 122 (C "mpi_c_status") None]; (* req.c 117-124 *)
  mkPl "req.c" (C "MPI_Testany") 126 143 None [mkUse 133 (C "MPI_Test") None]; (* req.c 126-143 *)
  mkPl "req.c" (F "mpi_testall" "MPI_TESTALL") 149 156 None [mkUse 153 (C "MPI_Testall") None; mkUse 154 (C "mpi_c_statuses") None]; (* req.c 149-156 *)
  mkPl "req.c" (C "MPI_Testall") 158 175 None [mkUse 168 (C "MPI_Test") None]; (* req.c 158-175 *)
  mkPl "req.c" (F "mpi_waitall" "MPI_WAITALL") 182 189 None [mkUse 185 (C "MPI_Waitall") None; mkUse 186 (C "mpi_c_statuses") None]; (* req.c 182-189 *)
  mkPl "req.c" (C "MPI_Waitall") 193 211 None [mkUse 201 (C "MPI_Test") None; mkUse 205 (C "fprintf") None; mkUse 206 (C "abort") None]; (* req.c 193-211 *)
  mkPl "req.c" (F "mpi_testsome" "MPI_TESTSOME") 217 224 None [mkUse 221 (C "MPI_Testsome") None; mkUse 222 (C "mpi_c_statuses") None]; (* req.c 217-224 *)
  mkPl "req.c" (C "MPI_Testsome") 226 244 None [mkUse 236 (C "MPI_Test") None]; (* req.c 226-244 *)
  mkPl "req.c" (F "mpi_waitsome" "MPI_WAITSOME") 250 257 None [mkUse 254 (C "MPI_Waitsome") None; mkUse 255 (C "mpi_c_statuses") None]; (* req.c 250-257 *)
  mkPl "req.c" (C "MPI_Waitsome") 259 272 None [mkUse 262 (C "MPI_Testsome") None; mkUse 267 (C "fprintf") None; mkUse 268 (C "abort") None]; (* req.c 259-272 *)
  mkPl "req.c" (F "mpi_request_free" "MPI_REQUEST_FREE") 278 283 None [mkUse 281 (C "MPI_Request_free") None]; (* req.c 278-283 *)
  mkPl "req.c" (C "MPI_Request_free") 285 290 None [mkUse 287 (C "mpi_free_handle") None]; (* req.c 285-290 *)
  mkPl "req.c" (C "MPI_Request_f2c") 297 300 None []; (* req.c 297-300 *)
  mkPl "req.c" (C "MPI_Request_c2f") 307 310 None []; (* req.c 307-310 *)
  mkPl "send.c" (C "mpi_match_recv") 11 15 None []; (* send.c 11-15 *)
  mkPl "send.c" (F "mpi_isend" "MPI_ISEND") 24 32 None [mkUse 28 (C "MPI_Isend") None]; (* send.c 24-32 *)
  mkPl "send.c" (C "MPI_Isend") 36 95 None [mkUse 43 (C "mpi_handle_to_ptr") None; mkUse 46 (C "fflush") (Some "INFO"); mkUse 47 (C "fprintf") (Some "INFO"); mkUse 53 (C "fprintf") None; mkUse 54 (C "abort") None; mkUse 57 (C "mpi_alloc_handle") None; mkUse 65 (C "AP_list_search_func") None; mkUse 65 (C "mpi_match_recv") None; mkUse 67 (C "AP_listitem_data") None; mkUse 68 (C "AP_list_delete_item") None; mkUse 70 (C "copy_data2") None; mkUse 78 (C "printf") (Some "DEBUG"); mkUse 88 (C "AP_list_append") None; mkUse 91 (C "print_list") (Some "INFO")]; (* send.c 36-95 *)
  mkPl "send.c" (F "mpi_send" "MPI_SEND") 101 106 None [mkUse 104 (C "MPI_Send") None]; (* send.c 101-106 *)
  mkPl "send.c" (C "MPI_Send") 110 126 None [mkUse 117 (C "fflush") (Some "INFO"); mkUse 118 (C "fprintf") (Some "INFO"); mkUse 121 (C "MPI_Isend") None; mkUse 122 (C "MPI_Wait") None]; (* send.c 110-126 *)
  mkPl "send.c" (F "mpi_ssend" "MPI_SSEND") 134 139 None [mkUse 137 (C "MPI_Send") None]; (* send.c 134-139 *)
  mkPl "send.c" (C "MPI_Ssend") 143 147 None [mkUse 146 (C "MPI_Send") None]; (* send.c 143-147 *)
  mkPl "send.c" (F "mpi_rsend" "MPI_RSEND") 154 159 None [mkUse 157 (C "MPI_Send") None]; (* send.c 154-159 *)
  mkPl "send.c" (C "MPI_Rsend") 163 167 None [mkUse 166 (C "MPI_Send") None]; (* send.c 163-167 *)
  mkPl "send.c" (F "mpi_irsend" "MPI_IRSEND") 176 184 None [mkUse 180 (C "MPI_Irsend") None]; (* send.c 176-184 *)
  mkPl "send.c" (C "MPI_Irsend") 188 211 None [mkUse 194 (C "MPI_Isend") None; mkUse 202 (C "mpi_handle_to_ptr") None; mkUse 205 (C "fprintf") None; mkUse 206 (C "abort") None]; (* send.c 188-211 *)
  mkPl "send.c" (F "mpi_sendrecv" "MPI_SENDRECV") 219 229 None [mkUse 225 (C "MPI_Sendrecv") None; mkUse 227 (C "mpi_c_status") None]; (* send.c 219-229 *)
  mkPl "send.c" (C "MPI_Sendrecv") 233 250 None [mkUse 242 (C "MPI_Irecv") None; mkUse 244 (C "MPI_Send") None; mkUse 246 (C "MPI_Wait") None]; (* send.c 233-250 *)
  mkPl "time.c" (F "mpi_wtime" "MPI_WTIME") 13 16 None [mkUse 15 (C "MPI_Wtime") None]; (* time.c 13-16 *)
  mkPl "time.c" (C "MPI_Wtime") 20 32 None [mkUse 24 (C "gettimeofday") None; mkUse 26 (C "fprintf") None; mkUse 27 (C "abort") None]; (* time.c 20-32 *)
  mkPl "type.c" (C "mpi_handle_to_datatype") 33 39 None [mkUse 38 (C "mpi_handle_to_ptr") None]; (* type.c 33-39 *)
  mkPl "type.c" (C "calc_padding") 46 60 None [mkUse 55 (C "Simpletype_length") None]; (* type.c 46-60 *)
  mkPl "type.c" (C "Simpletype_length") 68 141 None [mkUse 138 (C "printf") None; mkUse 139 (C "exit") None]; (* type.c 68-141 *)
  mkPl "type.c" (C "calc_lb") 147 161 None []; (* type.c 147-161 *)
  mkPl "type.c" (C "calc_ub") 168 183 None [mkUse 177 (C "Simpletype_length") None; mkUse 178 (C "Simpletype_length") None]; (* type.c 168-183 *)
  mkPl "type.c" (C "Type_extent") 188 208 None [mkUse 193 (C "calc_padding") None]; (* type.c 188-208 *)
  mkPl "type.c" (F "mpi_type_extent" "MPI_TYPE_EXTENT") 210 214 None [mkUse 212 (C "MPI_Type_extent") None]; (* type.c 210-214 *)
  mkPl "type.c" (C "MPI_Type_extent") 216 221 None [mkUse 218 (C "mpi_handle_to_datatype") None; mkUse 220 (C "Type_extent") None]; (* type.c 216-221 *)
  mkPl "type.c" (C "Type_get_true_extent") 227 241 None [mkUse 229 (C "calc_padding") None; mkUse 230 (C "calc_ub") None; mkUse 231 (C "calc_lb") None]; (* type.c 227-241 *)
  mkPl "type.c" (C "Copy_type") 245 251 None []; (* type.c 245-251 *)
  mkPl "type.c" (C "Type_struct") 259 389 None [mkUse 311 (C "malloc") None; mkUse 334 (C "Type_extent") None; mkUse 347 (C "Copy_type") None; mkUse 372 (C "calc_lb") None; mkUse 382 (C "calc_ub") None]; (* type.c 259-389 *)
  mkPl "type.c" (F "mpi_type_struct" "MPI_TYPE_STRUCT") 391 398 None [mkUse 395 (C "MPI_Type_struct") None]; (* type.c 391-398 *)
  mkPl "type.c" (C "MPI_Type_struct") 403 419 None [mkUse 412 (C "mpi_handle_to_datatype") None; mkUse 415 (C "mpi_alloc_handle") None; mkUse 417 (C "Type_struct") None]; (* type.c 403-419 *)
  mkPl "type.c" (C "Type_contiguous") 427 445 None [mkUse 437 (C "Type_extent") None; mkUse 444 (C "Type_struct") None]; (* type.c 427-445 *)
  mkPl "type.c" (F "mpi_type_contiguous" "MPI_TYPE_CONTIGUOUS") 447 452 None [mkUse 450 (C "MPI_Type_contiguous") None]; (* type.c 447-452 *)
  mkPl "type.c" (C "MPI_Type_contiguous") 454 462 None [mkUse 456 (C "mpi_handle_to_datatype") None; mkUse 459 (C "mpi_alloc_handle") None; mkUse 461 (C "Type_contiguous") None]; (* type.c 454-462 *)
  mkPl "type.c" (C "Type_hvector") 466 484 None [mkUse 475 (C "Type_extent") None; mkUse 483 (C "Type_struct") None]; (* type.c 466-484 *)
  mkPl "type.c" (F "mpi_type_hvector" "MPI_TYPE_HVECTOR") 486 492 None [mkUse 490 (C "MPI_Type_hvector") None]; (* type.c 486-492 *)
  mkPl "type.c" (C "MPI_Type_hvector") 494 502 None [mkUse 497 (C "mpi_handle_to_datatype") None; mkUse 500 (C "mpi_alloc_handle") None; mkUse 501 (C "Type_hvector") None]; (* type.c 494-502 *)
  mkPl "type.c" (F "mpi_type_create_hvector" "MPI_TYPE_CREATE_HVECTOR") 504 510 None [mkUse 508 (C "MPI_Type_create_hvector") None]; (* type.c 504-510 *)
  mkPl "type.c" (C "MPI_Type_create_hvector") 512 520 None [mkUse 515 (C "mpi_handle_to_datatype") None; mkUse 518 (C "mpi_alloc_handle") None; mkUse 519 (C "Type_hvector") None]; (* type.c 512-520 *)
  mkPl "type.c" (C "Type_vector") 527 537 None [mkUse 533 (C "Type_extent") None; mkUse 536 (C "Type_hvector") None]; (* type.c 527-537 *)
  mkPl "type.c" (F "mpi_type_vector" "MPI_TYPE_VECTOR") 539 546 None [mkUse 543 (C "MPI_Type_vector") None]; (* type.c 539-546 *)
  mkPl "type.c" (C "MPI_Type_vector") 548 557 None [mkUse 551 (C "mpi_handle_to_datatype") None; mkUse 554 (C "mpi_alloc_handle") None; mkUse 556 (C "Type_vector") None]; (* type.c 548-557 *)
  mkPl "type.c" (C "Type_hindexed") 562 574 None [mkUse 573 (C "Type_struct") None]; (* type.c 562-574 *)
  mkPl "type.c" (F "mpi_type_hindexed" "MPI_TYPE_HINDEXED") 576 583 None [mkUse 580 (C "MPI_Type_hindexed") None]; (* type.c 576-583 *)
  mkPl "type.c" (C "MPI_Type_hindexed") 585 593 None [mkUse 588 (C "mpi_handle_to_datatype") None; mkUse 591 (C "mpi_alloc_handle") None; mkUse 592 (C "Type_hindexed") None]; (* type.c 585-593 *)
  mkPl "type.c" (C "Type_indexed") 598 612 None [mkUse 607 (C "Type_extent") None; mkUse 611 (C "Type_hindexed") None]; (* type.c 598-612 *)
  mkPl "type.c" (F "mpi_type_indexed" "MPI_TYPE_INDEXED") 614 620 None [mkUse 618 (C "MPI_Type_indexed") None]; (* type.c 614-620 *)
  mkPl "type.c" (C "MPI_Type_indexed") 623 631 None [mkUse 626 (C "mpi_handle_to_datatype") None; mkUse 629 (C "mpi_alloc_handle") None; mkUse 630 (C "Type_indexed") None]; (* type.c 623-631 *)
  mkPl "type.c" (C "Type_create_indexed_block") 635 645 None [mkUse 644 (C "Type_indexed") None]; (* type.c 635-645 *)
  mkPl "type.c" (F "mpi_type_create_indexed_block" "MPI_TYPE_CREATE_INDEXED_BLOCK") 647 654 None [mkUse 651 (C "MPI_Type_create_indexed_block") None]; (* type.c 647-654 *)
  mkPl "type.c" (C "MPI_Type_create_indexed_block") 656 664 None [mkUse 659 (C "mpi_handle_to_datatype") None; mkUse 662 (C "mpi_alloc_handle") None; mkUse 663 (C "Type_create_indexed_block") None]; (* type.c 656-664 *)
  mkPl "type.c" (C "Type_dup") 668 685 None [mkUse 672 (C "malloc") None; mkUse 681 (C "Copy_type") None]; (* type.c 668-685 *)
  mkPl "type.c" (C "Type_size") 690 699 None [mkUse 695 (C "Simpletype_length") None]; (* type.c 690-699 *)
  mkPl "type.c" (F "mpi_type_size" "MPI_TYPE_SIZE") 701 705 None [mkUse 703 (C "MPI_Type_size") None]; (* type.c 701-705 *)
  mkPl "type.c" (C "MPI_Type_size") 707 711 None [mkUse 709 (C "mpi_handle_to_datatype") None; mkUse 710 (C "Type_size") None]; (* type.c 707-711 *)
  mkPl "type.c" (C "Type_lb") 716 720 None []; (* type.c 716-720 *)
  mkPl "type.c" (F "mpi_type_lb" "MPI_TYPE_LB") 722 726 None [mkUse 724 (C "MPI_Type_lb") None]; (* type.c 722-726 *)
  mkPl "type.c" (C "MPI_Type_lb") 728 733 None [mkUse 730 (C "mpi_handle_to_datatype") None; mkUse 732 (C "Type_lb") None]; (* type.c 728-733 *)
  mkPl "type.c" (C "Type_ub") 738 742 None []; (* type.c 738-742 *)
  mkPl "type.c" (F "mpi_type_ub" "MPI_TYPE_UB") 744 748 None [mkUse 746 (C "MPI_Type_ub") None]; (* type.c 744-748 *)
  mkPl "type.c" (C "MPI_Type_ub") 750 755 None [mkUse 752 (C "mpi_handle_to_datatype") None; mkUse 754 (C "Type_ub") None]; (* type.c 750-755 *)
  mkPl "type.c" (C "FGet_address") 761 765 None []; (* type.c 761-765 *)
  mkPl "type.c" (F "mpi_get_address" "MPI_ADDRESS") 767 771 None [mkUse 769 (C "FGet_address") None]; (* type.c 767-771 *)
  mkPl "type.c" (C "MPI_Get_address") 773 777 None []; (* type.c 773-777 *)
  mkPl "type.c" (F "mpi_address" "MPI_ADDRESS") 779 784 None [mkUse 782 (C "FGet_address") None]; (* type.c 779-784 *)
  mkPl "type.c" (C "MPI_Address") 786 789 None [mkUse 788 (C "MPI_Get_address") None]; (* type.c 786-789 *)
  mkPl "type.c" (F "mpi_type_commit" "MPI_TYPE_COMMIT") 793 797 None [mkUse 795 (C "MPI_Type_commit") None]; (* type.c 793-797 *)
  mkPl "type.c" (C "MPI_Type_commit") 799 805 None [mkUse 801 (C "mpi_handle_to_datatype") None]; (* type.c 799-805 *)
  mkPl "type.c" (F "mpi_type_free" "MPI_TYPE_FREE") 808 812 None [mkUse 810 (C "MPI_Type_free") None]; (* type.c 808-812 *)
  mkPl "type.c" (C "MPI_Type_free") 814 823 None [mkUse 816 (C "mpi_handle_to_datatype") None; mkUse 817 (C "free") None; mkUse 820 (C "mpi_free_handle") None]; (* type.c 814-823 *)
  mkPl "type.c" (F "print_typemap" "PRINT_TYPEMAP") 830 834 (Some "TEST_INTERNAL") [mkUse 832 (C "print_typemap") None]; (* type.c 830-834 *)
  mkPl "type.c" (C "print_typemap") 836 841 (Some "TEST_INTERNAL") [mkUse 838 (C "mpi_handle_to_datatype") None; mkUse 840 (C "Pprint_typemap") None]; (* type.c 836-841 *)
  mkPl "type.c" (C "Pprint_typemap") 843 865 (Some "TEST_INTERNAL") [mkUse 847 (C "Type_extent") None; mkUse 849 (C "printf") None; mkUse 851 (C "calc_padding") None; mkUse 855 (C "printf") None; mkUse 856 (C "Simpletype_length") None; mkUse 860 (C "printf") None; mkUse 862 (C "printf") None] (* type.c 843-865 *)
].
(** The prototypes in C files: file, line and declaration (copy.c 26-27). *)
Definition prototypes_in : list (string * Z * decl) := [("copy.c", 26, mkDecl "copy.c" (C "Pcopy_data2") ("int", 0%nat) [("void", 1%nat); ("int", 0%nat); ("Datatype", 0%nat); ("void", 1%nat); ("int", 0%nat); ("Datatype", 0%nat)])].
(** What every C file and header includes, in order, with HAVE_CONFIG_H; each line cites its own (cart.c 1 to listops.h 21). *)
Definition includes : list (string * list string) := [
  ("cart.c", ["mpiP.h"]); (* cart.c 1 *)
  ("collective.c", ["mpiP.h"]); (* collective.c 2 *)
  ("comm.c", ["mpiP.h"]); (* comm.c 2 *)
  ("copy.c", ["mpiP.h"; "type.h"; "string.h"; "stdio.h"; "stdlib.h"; "limits.h"; "config.h"]); (* copy.c 8-17 *)
  ("error.c", ["mpiP.h"]); (* error.c 2 *)
  ("getcount.c", ["type.h"; "mpiP.h"]); (* getcount.c 7-8 *)
  ("group.c", ["mpiP.h"]); (* group.c 2 *)
  ("handles.c", ["mpiP.h"; "type.h"]); (* handles.c 8-9 *)
  ("ic_merge.c", ["mpiP.h"]); (* ic_merge.c 2 *)
  ("info.c", ["mpiP.h"]); (* info.c 2 *)
  ("list.c", ["stdlib.h"; "stdio.h"; "listops.h"; "listP.h"]); (* list.c 8-11 *)
  ("mpi.c", ["mpiP.h"; "mpi.h"; "type.h"]); (* mpi.c 1-3 *)
  ("op.c", ["mpi.h"; "mpiP.h"]); (* op.c 1-2 *)
  ("pack.c", ["stdio.h"; "stdlib.h"; "string.h"; "mpiP.h"; "type.h"]); (* pack.c 1-5 *)
  ("probe.c", ["mpiP.h"]); (* probe.c 2 *)
  ("recv.c", ["mpiP.h"]); (* recv.c 2 *)
  ("req.c", ["mpiP.h"]); (* req.c 1 *)
  ("send.c", ["mpiP.h"]); (* send.c 1 *)
  ("time.c", ["sys/time.h"; "time.h"; "mpiP.h"]); (* time.c 2-6 *)
  ("type.c", ["type.h"; "mpiP.h"; "stdlib.h"; "stdio.h"; "limits.h"; "config.h"]); (* type.c 7-14 *)
  ("type_const.c", ["type.h"]); (* type_const.c 1 *)
  ("mpi.h", []); (* mpi.h 1-441 *)
  ("mpiP.h", ["unistd.h"; "stdlib.h"; "stdio.h"; "string.h"; "listops.h"; "mpi.h"; "config.h"]); (* mpiP.h 9-30 *)
  ("type.h", ["mpiP.h"; "config.h"]); (* type.h 7-11 *)
  ("list.h", []); (* list.h 1-45 *)
  ("listP.h", []); (* listP.h 1-33 *)
  ("listops.h", ["list.h"]) (* listops.h 21 *)
].
(** The headers that are skipped when they are read a second time (mpi.h 1-2, mpiP.h 1-2, type.h 1-2, listops.h 9-10); the headers of the C library and config.h do no harm then. *)
Definition guarded : list string := ["mpi.h"; "mpiP.h"; "type.h"; "listops.h"].
(** The headers of the C library that are used, and which of its routines they declare; that they declare them is in the C standard and in POSIX (mpiP.h 9-12, time.c 2-3,
    copy.c 10-13). *)
Definition c_headers : list (string * list string) := [
  ("unistd.h", ["gethostname"; "sleep"]); ("stdlib.h", ["abort"; "exit"; "free"; "malloc"]); ("stdio.h", ["fflush"; "fprintf"; "perror"; "printf"; "sprintf"]);
  ("string.h", ["memcpy"; "memset"; "strlen"; "strncpy"]); ("sys/time.h", ["gettimeofday"]); ("time.h", []); ("limits.h", [])
].
(** What configure makes (configure.ac 6). *)
Definition made_by_configure : list string := ["config.h"].
(** The files that are compiled for libmpi-serial.a (Makefile.am 2-4). *)
Definition sources : list string := [
  "fort.F90"; "mpif.F90"; "mpi.c"; "send.c"; "recv.c"; "collective.c"; "req.c"; "collective.c"; "req.c"; "list.c"; "handles.c"; "comm.c"; "error.c"; "ic_merge.c";
  "group.c"; "time.c"; "pack.c"; "type.c"; "type_const.c"; "copy.c"; "op.c"; "cart.c"; "getcount.c"; "probe.c"; "info.c"
].
(** The headers that are installed (Makefile.am 6). *)
Definition installed : list string := ["mpi.h"; "mpif.h"; "mpi.mod"].
(** The files of the repository in its main directory, but for those whose name begins with a dot: the listing of what is there (Makefile.am 1-8 is one of them). *)
Definition files : list string := [
  "AUTHORS"; "LICENSE"; "Makefile.am"; "Makefile.in"; "README"; "aclocal.m4"; "cart.c"; "collective.c"; "comm.c"; "compile";
  "config.guess"; "config.h.in"; "config.sub"; "configure"; "configure.ac"; "copy.c"; "depcomp"; "error.c"; "fort.F90"; "getcount.c";
  "group.c"; "handles.c"; "ic_merge.c"; "info.c"; "install-sh"; "list.c"; "list.h"; "listP.h"; "listops.h"; "missing";
  "mpi.c"; "mpi.h"; "mpiP.h"; "mpif.F90"; "mpif.h"; "op.c"; "pack.c"; "probe.c"; "protify.awk"; "recv.c";
  "req.c"; "send.c"; "test-driver"; "time.c"; "type.c"; "type.h"; "type_const.c"
].
(** What "make dist" copies from the main directory (Makefile.in 97-99, 203-204, 218 and 246-249): $(DIST_COMMON) and $(DIST_SOURCES). *)
Definition dist_common : list string := [
  "Makefile.am"; "configure"; "configure.ac"; "aclocal.m4"; "Makefile.in"; "config.h.in"; "AUTHORS"; "COPYING"; "ChangeLog"; "INSTALL"; "NEWS"; "README"; "compile";
  "config.guess"; "config.sub"; "depcomp"; "install-sh"; "missing"
].
(** The same (Makefile.in 97-99 and 249). *)
Definition dist_files : list string := dist_common ++ installed ++ sources.

(** How a Fortran compiler makes names, as configure sees it: in upper case or not, an underscore at the end or not, another one if the name has an underscore in
    it or not (configure 4937-4948). *)
Record scheme := mkScheme { sc_upper : bool; sc_under : bool; sc_extra : bool }.
(** The macro FC_FUNC that configure writes into config.h (configure 4981-5021): it does not look at the third.  There is FC_FUNC_ too, for names with
    underscores; mpi-serial does not use it (mpiP.h 17-31). *)
Definition fc_func (sc : scheme) (lower upper : string) : string :=
  (if sc_upper sc then upper else lower) ++ (if sc_under sc then "_" else "").
(** The macro FC_FUNC_ (configure 4981-5021). *)
Definition fc_func_ (sc : scheme) (lower upper : string) : string :=
  (if sc_upper sc then upper else lower) ++ (if sc_under sc then "_" else "") ++ (if sc_extra sc then "_" else "").
(** The name the linker sees when config.h is used (mpiP.h 29-31). *)
Definition config_symbol (sc : scheme) (n : nm) : string := match n with C s => s | F lower upper => fc_func sc lower upper end.
