(** The library and its test programs as text: which routines there are, how they are declared, and what they call (C105, C106).

    Only names and types are modelled here.  The text is the one compiled without INFO, DEBUG, CHECKS, HANDLE_INFO, LISTMAIN, TYPE_CHECKING
    and TEST_INTERNAL.  Macros are replaced by the calls in them. *)
From Verif Require Import Base.
#[local] Open Scope nat_scope.
#[local] Open Scope string_scope.

(** Names of routines: a name of C, and one made by FC_FUNC from a name in lower case and one in upper case, e.g. mpi.c 224.  A Fortran compiler makes
    its names from the same two, so a name used in a Fortran program is written in this way too (tests/ftest.F90 18). *)
Inductive nm := C (s : string) | F (lower upper : string).
(** The four ways of FC_FUNC (mpiP.h 56-67); config.h may define FC_FUNC as well (mpiP.h 29-31), which is not modelled. *)
Inductive mangling := ONE_UNDERSCORE | TWO_UNDERSCORES | SAME | CAPS.
(** The name the linker sees (mpiP.h 56-63). *)
Definition symbol (m : mangling) (n : nm) : string :=
  match n with
  | C s => s
  | F lower upper => match m with ONE_UNDERSCORE => lower ++ "_" | TWO_UNDERSCORES => lower ++ "__" | SAME => lower | CAPS => upper end
  end.
(** Types: a base type and the number of stars, e.g. a pointer to MPI_Comm is ("MPI_Comm", 1) (mpi.h 258); arrays are pointers; const is left out.  The type of
    a function passed to a routine of list.c is written as one base type (list.c 447). *)
Definition cty : Type := string * nat.
(** A routine, e.g. mpi.c 232-240: file, name, whether it is static, type of the result, types of the parameters, the routines it calls, the ones
    it passes to others (recv.c 75), and whether it calls a routine passed to it (list.c 456). *)
Record fn := mkFn { fn_file : string; fn_name : nm; fn_static : bool; fn_ret : cty; fn_params : list cty; fn_calls : list nm; fn_passes : list nm; fn_indirect : bool }.
(** A declaration in a header, e.g. mpi.h 255. *)
Record decl := mkDecl { d_file : string; d_name : nm; d_ret : cty; d_params : list cty }.

(** The routines of the library; each line cites its own (cart.c 10 to fort.F90 68). *)
Definition library : list fn := [
  mkFn "cart.c" (F "mpi_cart_create" "MPI_CART_CREATE") false ("int", 0) [("int", 1); ("int", 1); ("int", 1); ("int", 1); ("int", 1); ("int", 1); ("int", 1)] [C "MPI_Cart_create"] [] false (* cart.c 10-17 *);
  mkFn "cart.c" (C "MPI_Cart_create") false ("int", 0) [("MPI_Comm", 0); ("int", 0); ("int", 1); ("int", 1); ("int", 0); ("MPI_Comm", 1)] [C "printf"; C "abort"; C "MPI_Comm_dup"] [] false (* cart.c 20-34 *);
  mkFn "cart.c" (F "mpi_cart_get" "MPI_CART_GET") false ("int", 0) [("int", 1); ("int", 1); ("int", 1); ("int", 1); ("int", 1); ("int", 1)] [C "MPI_Cart_get"] [] false (* cart.c 48-54 *);
  mkFn "cart.c" (C "MPI_Cart_get") false ("int", 0) [("MPI_Comm", 0); ("int", 0); ("int", 1); ("int", 1); ("int", 1)] [] [] false (* cart.c 57-67 *);
  mkFn "cart.c" (F "mpi_cart_coords" "MPI_CART_COORDS") false ("int", 0) [("int", 1); ("int", 1); ("int", 1); ("int", 1); ("int", 1)] [C "MPI_Cart_coords"] [] false (* cart.c 79-84 *);
  mkFn "cart.c" (C "MPI_Cart_coords") false ("int", 0) [("MPI_Comm", 0); ("int", 0); ("int", 0); ("int", 1)] [C "printf"; C "abort"] [] false (* cart.c 87-101 *);
  mkFn "cart.c" (F "mpi_dims_create" "MPI_DIMS_CREATE") false ("int", 0) [("int", 1); ("int", 1); ("int", 1); ("int", 1)] [C "MPI_Dims_create"] [] false (* cart.c 111-116 *);
  mkFn "cart.c" (C "MPI_Dims_create") false ("int", 0) [("int", 0); ("int", 0); ("int", 1)] [C "printf"; C "abort"] [] false (* cart.c 119-133 *);
  mkFn "collective.c" (F "mpi_barrier" "MPI_BARRIER") false ("int", 0) [("int", 1); ("int", 1)] [C "MPI_Barrier"] [] false (* collective.c 11-15 *);
  mkFn "collective.c" (C "MPI_Barrier") false ("int", 0) [("MPI_Comm", 0)] [] [] false (* collective.c 18-21 *);
  mkFn "collective.c" (F "mpi_bcast" "MPI_BCAST") false ("int", 0) [("void", 1); ("int", 1); ("int", 1); ("int", 1); ("int", 1); ("int", 1)] [C "MPI_Bcast"] [] false (* collective.c 27-32 *);
  mkFn "collective.c" (C "MPI_Bcast") false ("int", 0) [("void", 1); ("int", 0); ("MPI_Datatype", 0); ("int", 0); ("MPI_Comm", 0)] [C "fprintf"; C "abort"] [] false (* collective.c 36-50 *);
  mkFn "collective.c" (F "mpi_gather" "MPI_GATHER") false ("int", 0) [("void", 1); ("int", 1); ("int", 1); ("void", 1); ("int", 1); ("int", 1); ("int", 1); ("int", 1); ("int", 1)] [C "MPI_Gather"; C "mpi_c_in_place"] [] false (* collective.c 56-65 *);
  mkFn "collective.c" (C "MPI_Gather") false ("int", 0) [("void", 1); ("int", 0); ("MPI_Datatype", 0); ("void", 1); ("int", 0); ("MPI_Datatype", 0); ("int", 0); ("MPI_Comm", 0)] [C "fprintf"; C "abort"; C "copy_data2"] [] false (* collective.c 68-89 *);
  mkFn "collective.c" (F "mpi_gatherv" "MPI_GATHERV") false ("int", 0) [("void", 1); ("int", 1); ("int", 1); ("void", 1); ("int", 1); ("int", 1); ("int", 1); ("int", 1); ("int", 1); ("int", 1)] [C "MPI_Gatherv"; C "mpi_c_in_place"] [] false (* collective.c 95-104 *);
  mkFn "collective.c" (C "MPI_Gatherv") false ("int", 0) [("void", 1); ("int", 0); ("MPI_Datatype", 0); ("void", 1); ("int", 1); ("int", 1); ("MPI_Datatype", 0); ("int", 0); ("MPI_Comm", 0)] [C "fprintf"; C "abort"; C "MPI_Type_extent"; C "copy_data2"] [] false (* collective.c 107-135 *);
  mkFn "collective.c" (F "mpi_allgather" "MPI_ALLGATHER") false ("int", 0) [("void", 1); ("int", 1); ("int", 1); ("void", 1); ("int", 1); ("int", 1); ("int", 1); ("int", 1)] [C "MPI_Allgather"; C "mpi_c_in_place"] [] false (* collective.c 142-151 *);
  mkFn "collective.c" (C "MPI_Allgather") false ("int", 0) [("void", 1); ("int", 0); ("MPI_Datatype", 0); ("void", 1); ("int", 0); ("MPI_Datatype", 0); ("MPI_Comm", 0)] [C "copy_data2"] [] false (* collective.c 154-167 *);
  mkFn "collective.c" (F "mpi_allgatherv" "MPI_ALLGATHERV") false ("int", 0) [("void", 1); ("int", 1); ("int", 1); ("void", 1); ("int", 1); ("int", 1); ("int", 1); ("int", 1); ("int", 1)] [C "MPI_Allgatherv"; C "mpi_c_in_place"] [] false (* collective.c 173-182 *);
  mkFn "collective.c" (C "MPI_Allgatherv") false ("int", 0) [("void", 1); ("int", 0); ("MPI_Datatype", 0); ("void", 1); ("int", 1); ("int", 1); ("MPI_Datatype", 0); ("MPI_Comm", 0)] [C "MPI_Type_extent"; C "copy_data2"] [] false (* collective.c 185-204 *);
  mkFn "collective.c" (F "mpi_scatter" "MPI_SCATTER") false ("int", 0) [("void", 1); ("int", 1); ("int", 1); ("void", 1); ("int", 1); ("int", 1); ("int", 1); ("int", 1); ("int", 1)] [C "MPI_Scatter"; C "mpi_c_in_place"] [] false (* collective.c 214-223 *);
  mkFn "collective.c" (C "MPI_Scatter") false ("int", 0) [("void", 1); ("int", 0); ("MPI_Datatype", 0); ("void", 1); ("int", 0); ("MPI_Datatype", 0); ("int", 0); ("MPI_Comm", 0)] [C "fprintf"; C "abort"; C "copy_data2"] [] false (* collective.c 225-245 *);
  mkFn "collective.c" (F "mpi_scatterv" "MPI_SCATTERV") false ("int", 0) [("void", 1); ("int", 1); ("int", 1); ("int", 1); ("void", 1); ("int", 1); ("int", 1); ("int", 1); ("int", 1); ("int", 1)] [C "MPI_Scatterv"; C "mpi_c_in_place"] [] false (* collective.c 252-261 *);
  mkFn "collective.c" (C "MPI_Scatterv") false ("int", 0) [("void", 1); ("int", 1); ("int", 1); ("MPI_Datatype", 0); ("void", 1); ("int", 0); ("MPI_Datatype", 0); ("int", 0); ("MPI_Comm", 0)] [C "fprintf"; C "abort"; C "MPI_Type_extent"; C "copy_data2"] [] false (* collective.c 265-291 *);
  mkFn "collective.c" (F "mpi_reduce" "MPI_REDUCE") false ("int", 0) [("void", 1); ("void", 1); ("int", 1); ("int", 1); ("int", 1); ("int", 1); ("int", 1); ("int", 1)] [C "MPI_Reduce"] [] false (* collective.c 298-306 *);
  mkFn "collective.c" (C "MPI_Reduce") false ("int", 0) [("void", 1); ("void", 1); ("int", 0); ("MPI_Datatype", 0); ("MPI_Op", 0); ("int", 0); ("MPI_Comm", 0)] [C "fprintf"; C "abort"; C "copy_data2"] [] false (* collective.c 310-324 *);
  mkFn "collective.c" (F "mpi_allreduce" "MPI_ALLREDUCE") false ("int", 0) [("void", 1); ("void", 1); ("int", 1); ("int", 1); ("int", 1); ("int", 1); ("int", 1)] [C "MPI_Allreduce"] [] false (* collective.c 330-338 *);
  mkFn "collective.c" (C "MPI_Allreduce") false ("int", 0) [("void", 1); ("void", 1); ("int", 0); ("MPI_Datatype", 0); ("MPI_Op", 0); ("MPI_Comm", 0)] [C "copy_data2"] [] false (* collective.c 341-352 *);
  mkFn "collective.c" (F "mpi_reduce_scatter" "MPI_REDUCE_SCATTER") false ("int", 0) [("void", 1); ("void", 1); ("int", 1); ("int", 1); ("int", 1); ("int", 1); ("int", 1)] [C "MPI_Reduce_scatter"] [] false (* collective.c 363-369 *);
  mkFn "collective.c" (C "MPI_Reduce_scatter") false ("int", 0) [("void", 1); ("void", 1); ("int", 1); ("MPI_Datatype", 0); ("MPI_Op", 0); ("MPI_Comm", 0)] [C "copy_data2"] [] false (* collective.c 372-377 *);
  mkFn "collective.c" (F "mpi_scan" "MPI_SCAN") false ("int", 0) [("void", 1); ("void", 1); ("int", 1); ("int", 1); ("int", 1); ("int", 1); ("int", 1)] [C "MPI_Scan"] [] false (* collective.c 383-391 *);
  mkFn "collective.c" (C "MPI_Scan") false ("int", 0) [("void", 1); ("void", 1); ("int", 0); ("MPI_Datatype", 0); ("MPI_Op", 0); ("MPI_Comm", 0)] [C "copy_data2"] [] false (* collective.c 395-401 *);
  mkFn "collective.c" (F "mpi_alltoall" "MPI_ALLTOALL") false ("int", 0) [("void", 1); ("int", 1); ("int", 1); ("void", 1); ("int", 1); ("int", 1); ("int", 1); ("int", 1)] [C "MPI_Alltoall"] [] false (* collective.c 406-415 *);
  mkFn "collective.c" (C "MPI_Alltoall") false ("int", 0) [("void", 1); ("int", 0); ("MPI_Datatype", 0); ("void", 1); ("int", 0); ("MPI_Datatype", 0); ("MPI_Comm", 0)] [C "copy_data2"] [] false (* collective.c 418-426 *);
  mkFn "collective.c" (F "mpi_alltoallv" "MPI_ALLTOALLV") false ("int", 0) [("void", 1); ("int", 1); ("int", 1); ("int", 1); ("void", 1); ("int", 1); ("int", 1); ("int", 1); ("int", 1); ("int", 1)] [C "MPI_Alltoallv"] [] false (* collective.c 432-443 *);
  mkFn "collective.c" (C "MPI_Alltoallv") false ("int", 0) [("void", 1); ("int", 1); ("int", 1); ("MPI_Datatype", 0); ("void", 1); ("int", 1); ("int", 1); ("MPI_Datatype", 0); ("MPI_Comm", 0)] [C "MPI_Type_extent"; C "copy_data2"] [] false (* collective.c 445-471 *);
  mkFn "collective.c" (F "mpi_alltoallw" "MPI_ALLTOALLW") false ("int", 0) [("void", 1); ("int", 1); ("int", 1); ("int", 1); ("void", 1); ("int", 1); ("int", 1); ("int", 1); ("int", 1); ("int", 1)] [C "MPI_Alltoallw"] [] false (* collective.c 477-488 *);
  mkFn "collective.c" (C "MPI_Alltoallw") false ("int", 0) [("void", 1); ("int", 1); ("int", 1); ("MPI_Datatype", 1); ("void", 1); ("int", 1); ("int", 1); ("MPI_Datatype", 1); ("MPI_Comm", 0)] [C "copy_data2"] [] false (* collective.c 491-504 *);
  mkFn "collective.c" (C "MPI_Op_f2c") false ("MPI_Op", 0) [("MPI_Fint", 0)] [] [] false (* collective.c 510-513 *);
  mkFn "collective.c" (C "MPI_Op_c2f") false ("MPI_Fint", 0) [("MPI_Op", 0)] [] [] false (* collective.c 519-522 *);
  mkFn "comm.c" (C "mpi_comm_new") false ("MPI_Comm", 0) [] [C "mpi_alloc_handle"; C "AP_list_new"] [] false (* comm.c 13-27 *);
  mkFn "comm.c" (F "mpi_comm_free" "MPI_COMM_FREE") false ("int", 0) [("int", 1); ("int", 1)] [C "MPI_Comm_free"] [] false (* comm.c 33-37 *);
  mkFn "comm.c" (C "MPI_Comm_free") false ("int", 0) [("MPI_Comm", 1)] [C "mpi_handle_to_ptr"; C "AP_list_size"; C "fprintf"; C "AP_list_free"; C "mpi_free_handle"] [] false (* comm.c 50-78 *);
  mkFn "comm.c" (F "mpi_comm_size" "MPI_COMM_SIZE") false ("int", 0) [("int", 1); ("int", 1); ("int", 1)] [C "MPI_Comm_size"] [] false (* comm.c 85-89 *);
  mkFn "comm.c" (C "MPI_Comm_size") false ("int", 0) [("MPI_Comm", 0); ("int", 1)] [] [] false (* comm.c 93-98 *);
  mkFn "comm.c" (F "mpi_comm_rank" "MPI_COMM_RANK") false ("int", 0) [("int", 1); ("int", 1); ("int", 1)] [C "MPI_Comm_rank"] [] false (* comm.c 104-108 *);
  mkFn "comm.c" (C "MPI_Comm_rank") false ("int", 0) [("MPI_Comm", 0); ("int", 1)] [] [] false (* comm.c 111-116 *);
  mkFn "comm.c" (F "mpi_comm_dup" "MPI_COMM_DUP") false ("int", 0) [("int", 1); ("int", 1); ("int", 1)] [C "MPI_Comm_dup"] [] false (* comm.c 123-129 *);
  mkFn "comm.c" (C "MPI_Comm_dup") false ("int", 0) [("MPI_Comm", 0); ("MPI_Comm", 1)] [C "mpi_comm_new"] [] false (* comm.c 132-142 *);
  mkFn "comm.c" (F "mpi_comm_create" "MPI_COMM_CREATE") false ("int", 0) [("int", 1); ("int", 1); ("int", 1); ("int", 1)] [C "MPI_Comm_create"] [] false (* comm.c 148-153 *);
  mkFn "comm.c" (C "MPI_Comm_create") false ("int", 0) [("MPI_Comm", 0); ("MPI_Group", 0); ("MPI_Comm", 1)] [C "mpi_comm_new"] [] false (* comm.c 157-165 *);
  mkFn "comm.c" (F "mpi_comm_split" "MPI_COMM_SPLIT") false ("int", 0) [("int", 1); ("int", 1); ("int", 1); ("int", 1); ("int", 1)] [C "MPI_Comm_split"] [] false (* comm.c 172-178 *);
  mkFn "comm.c" (C "MPI_Comm_split") false ("int", 0) [("MPI_Comm", 0); ("int", 0); ("int", 0); ("MPI_Comm", 1)] [C "mpi_comm_new"] [] false (* comm.c 182-190 *);
  mkFn "comm.c" (F "mpi_comm_group" "MPI_COMM_GROUP") false ("int", 0) [("int", 1); ("int", 1); ("int", 1)] [C "MPI_Comm_group"] [] false (* comm.c 196-201 *);
  mkFn "comm.c" (C "MPI_Comm_group") false ("int", 0) [("MPI_Comm", 0); ("MPI_Group", 1)] [] [] false (* comm.c 205-213 *);
  mkFn "comm.c" (F "mpi_intercomm_create" "MPI_INTERCOMM_CREATE") false ("int", 0) [("int", 1); ("int", 1); ("int", 1); ("int", 1); ("int", 1); ("int", 1); ("int", 1)] [C "MPI_Intercomm_create"] [] false (* comm.c 219-227 *);
  mkFn "comm.c" (C "MPI_Intercomm_create") false ("int", 0) [("MPI_Comm", 0); ("int", 0); ("MPI_Comm", 0); ("int", 0); ("int", 0); ("MPI_Comm", 1)] [C "MPI_Comm_dup"] [] false (* comm.c 229-239 *);
  mkFn "comm.c" (C "MPI_Comm_f2c") false ("MPI_Comm", 0) [("MPI_Fint", 0)] [] [] false (* comm.c 245-249 *);
  mkFn "comm.c" (C "MPI_Comm_c2f") false ("MPI_Fint", 0) [("MPI_Comm", 0)] [] [] false (* comm.c 252-255 *);
  mkFn "copy.c" (C "copy_data2") false ("int", 0) [("void", 1); ("int", 0); ("MPI_Datatype", 0); ("void", 1); ("int", 0); ("MPI_Datatype", 0)] [C "mpi_handle_to_datatype"; C "Pcopy_data2"] [] false (* copy.c 30-37 *);
  mkFn "copy.c" (C "Pcopy_data2") false ("int", 0) [("void", 1); ("int", 0); ("Datatype", 0); ("void", 1); ("int", 0); ("Datatype", 0)] [C "fprintf"; C "exit"; C "printf"; C "Type_extent"; C "memcpy"; C "Simpletype_length"] [] false (* copy.c 42-88 *);
  mkFn "error.c" (C "MPI_Errhandler_set") false ("int", 0) [("MPI_Comm", 0); ("MPI_Errhandler", 0)] [] [] false (* error.c 10-13 *);
  mkFn "getcount.c" (F "mpi_get_count" "MPI_GET_COUNT") false ("int", 0) [("int", 1); ("int", 1); ("int", 1); ("int", 1)] [C "MPI_Get_count"] [] false (* getcount.c 11-16 *);
  mkFn "getcount.c" (C "MPI_Get_count") false ("int", 0) [("MPI_Status", 1); ("MPI_Datatype", 0); ("int", 1)] [] [] false (* getcount.c 19-23 *);
  mkFn "getcount.c" (F "mpi_get_elements" "MPI_GET_ELEMENTS") false ("int", 0) [("MPI_Status", 1); ("int", 1); ("int", 1); ("int", 1)] [C "MPI_Get_elements"] [] false (* getcount.c 29-34 *);
  mkFn "getcount.c" (C "MPI_Get_elements") false ("int", 0) [("MPI_Status", 1); ("MPI_Datatype", 0); ("int", 1)] [C "mpi_handle_to_datatype"] [] false (* getcount.c 37-42 *);
  mkFn "group.c" (F "mpi_group_incl" "MPI_GROUP_INCL") false ("int", 0) [("int", 1); ("int", 1); ("int", 1); ("int", 1); ("int", 1)] [C "MPI_Group_incl"] [] false (* group.c 8-13 *);
  mkFn "group.c" (C "MPI_Group_incl") false ("int", 0) [("MPI_Group", 0); ("int", 0); ("int", 1); ("MPI_Group", 1)] [C "fprintf"; C "abort"] [] false (* group.c 16-37 *);
  mkFn "group.c" (F "mpi_group_range_incl" "MPI_GROUP_RANGE_INCL") false ("int", 0) [("int", 1); ("int", 1); ("int", 2); ("int", 1); ("int", 1)] [C "MPI_Group_range_incl"] [] false (* group.c 50-55 *);
  mkFn "group.c" (C "MPI_Group_range_incl") false ("int", 0) [("MPI_Group", 0); ("int", 0); ("int", 2); ("MPI_Group", 1)] [C "fprintf"; C "abort"] [] false (* group.c 58-80 *);
  mkFn "group.c" (F "mpi_group_union" "MPI_GROUP_UNION") false ("int", 0) [("int", 1); ("int", 1); ("int", 1); ("int", 1)] [C "MPI_Group_union"] [] false (* group.c 89-94 *);
  mkFn "group.c" (C "MPI_Group_union") false ("int", 0) [("MPI_Group", 0); ("MPI_Group", 0); ("MPI_Group", 1)] [C "fprintf"; C "abort"] [] false (* group.c 98-114 *);
  mkFn "group.c" (F "mpi_group_intersection" "MPI_GROUP_INTERSECTION") false ("int", 0) [("int", 1); ("int", 1); ("int", 1); ("int", 1)] [C "MPI_Group_intersection"] [] false (* group.c 120-125 *);
  mkFn "group.c" (C "MPI_Group_intersection") false ("int", 0) [("MPI_Group", 0); ("MPI_Group", 0); ("MPI_Group", 1)] [C "fprintf"; C "abort"] [] false (* group.c 129-146 *);
  mkFn "group.c" (F "mpi_group_difference" "MPI_GROUP_DIFFERENCE") false ("int", 0) [("int", 1); ("int", 1); ("int", 1); ("int", 1)] [C "MPI_Group_difference"] [] false (* group.c 153-158 *);
  mkFn "group.c" (C "MPI_Group_difference") false ("int", 0) [("MPI_Group", 0); ("MPI_Group", 0); ("MPI_Group", 1)] [C "fprintf"; C "abort"] [] false (* group.c 162-178 *);
  mkFn "group.c" (F "mpi_group_free" "MPI_GROUP_FREE") false ("int", 0) [("int", 1); ("int", 1)] [C "MPI_Group_free"] [] false (* group.c 185-189 *);
  mkFn "group.c" (C "MPI_Group_free") false ("int", 0) [("MPI_Group", 1)] [] [] false (* group.c 192-197 *);
  mkFn "group.c" (F "mpi_group_translate_ranks" "MPI_GROUP_TRANSLATE_RANKS") false ("int", 0) [("int", 1); ("int", 1); ("int", 1); ("int", 1); ("int", 1); ("int", 1)] [C "MPI_Group_translate_ranks"] [] false (* group.c 204-210 *);
  mkFn "group.c" (C "MPI_Group_translate_ranks") false ("int", 0) [("MPI_Group", 0); ("int", 0); ("int", 1); ("MPI_Group", 0); ("int", 1)] [C "fprintf"; C "abort"] [] false (* group.c 214-252 *);
  mkFn "group.c" (C "MPI_Group_f2c") false ("MPI_Group", 0) [("MPI_Fint", 0)] [] [] false (* group.c 258-261 *);
  mkFn "group.c" (C "MPI_Group_c2f") false ("MPI_Fint", 0) [("MPI_Group", 0)] [] [] false (* group.c 267-270 *);
  mkFn "handles.c" (C "mpi_malloc") false ("void", 1) [("int", 0)] [C "malloc"; C "fprintf"; C "abort"] [] false (* handles.c 79-92 *);
  mkFn "handles.c" (C "mpi_free") false ("void", 0) [("void", 1)] [C "free"] [] false (* handles.c 95-98 *);
  mkFn "handles.c" (C "init_block") true ("Handleitem", 1) [("int", 0); ("Handleitem", 1)] [] [] false (* handles.c 110-124 *);
  mkFn "handles.c" (C "init_handles") true ("void", 0) [] [C "init_block"] [] false (* handles.c 129-157 *);
  mkFn "handles.c" (C "mpi_destroy_handles") false ("void", 0) [] [C "mpi_free"] [] false (* handles.c 161-172 *);
  mkFn "handles.c" (C "mpi_alloc_handle") false ("void", 0) [("int", 1); ("void", 2)] [C "init_handles"; C "fprintf"; C "abort"; C "mpi_malloc"; C "init_block"] [] false (* handles.c 178-225 *);
  mkFn "handles.c" (C "mpi_handle_to_ptr") false ("void", 1) [("int", 0)] [C "init_handles"] [] false (* handles.c 247-266 *);
  mkFn "handles.c" (C "mpi_free_handle") false ("void", 0) [("int", 0)] [C "fprintf"; C "abort"] [] false (* handles.c 270-309 *);
  mkFn "ic_merge.c" (C "MPI_Intercomm_merge") false ("int", 0) [("MPI_Comm", 0); ("int", 0); ("MPI_Comm", 1)] [] [] false (* ic_merge.c 11-15 *);
  mkFn "info.c" (F "mpi_info_create" "MPI_INFO_CREATE") false ("int", 0) [("int", 1); ("int", 1)] [C "MPI_Info_create"] [] false (* info.c 9-13 *);
  mkFn "info.c" (C "MPI_Info_create") false ("int", 0) [("MPI_Info", 1)] [] [] false (* info.c 17-22 *);
  mkFn "info.c" (F "mpi_info_set" "MPI_INFO_SET") false ("int", 0) [("int", 1); ("char", 1); ("char", 1); ("int", 1)] [C "MPI_Info_set"] [] false (* info.c 28-32 *);
  mkFn "info.c" (C "MPI_Info_set") false ("int", 0) [("MPI_Info", 0); ("char", 1); ("char", 1)] [] [] false (* info.c 35-39 *);
  mkFn "info.c" (C "MPI_Info_free") false ("int", 0) [("MPI_Info", 1)] [] [] false (* info.c 44-49 *);
  mkFn "info.c" (F "mpi_info_free" "MPI_INFO_FREE") false ("int", 0) [("int", 1); ("int", 1)] [C "MPI_Info_free"] [] false (* info.c 51-55 *);
  mkFn "list.c" (C "AP_listitem_malloc") true ("pListitem", 0) [] [C "malloc"; C "perror"; C "abort"] [] false (* list.c 32-46 *);
  mkFn "list.c" (C "AP_listitem_free") true ("void", 0) [("pListitem", 0)] [C "free"] [] false (* list.c 57-61 *);
  mkFn "list.c" (C "AP_listitem_verify") false ("int", 0) [] [C "fprintf"] [] false (* list.c 73-84 *);
  mkFn "list.c" (C "AP_listitem_prev") false ("pListitem", 0) [("pListitem", 0)] [] [] false (* list.c 89-92 *);
  mkFn "list.c" (C "AP_listitem_next") false ("pListitem", 0) [("pListitem", 0)] [] [] false (* list.c 96-99 *);
  mkFn "list.c" (C "AP_listitem_data") false ("void", 1) [("pListitem", 0)] [] [] false (* list.c 104-107 *);
  mkFn "list.c" (C "AP_list_new") false ("pList", 0) [] [C "malloc"; C "perror"; C "abort"] [] false (* list.c 123-141 *);
  mkFn "list.c" (C "AP_list_free") false ("void", 0) [("pList", 0)] [C "AP_listitem_free"; C "fprintf"; C "abort"; C "free"] [] false (* list.c 154-181 *);
  mkFn "list.c" (C "AP_list_size") false ("int", 0) [("pList", 0)] [] [] false (* list.c 192-195 *);
  mkFn "list.c" (C "AP_list_prepend") false ("pListitem", 0) [("pList", 0); ("void", 1)] [C "AP_listitem_malloc"] [] false (* list.c 206-230 *);
  mkFn "list.c" (C "AP_list_append") false ("pListitem", 0) [("pList", 0); ("void", 1)] [C "AP_listitem_malloc"] [] false (* list.c 241-263 *);
  mkFn "list.c" (C "AP_list_delete") false ("int", 0) [("pList", 0); ("void", 1)] [C "AP_list_search"; C "AP_list_delete_item"] [] false (* list.c 276-287 *);
  mkFn "list.c" (C "AP_list_delete_item") false ("void", 0) [("pList", 0); ("pListitem", 0)] [C "AP_listitem_free"] [] false (* list.c 291-318 *);
  mkFn "list.c" (C "AP_list_head_item") false ("pListitem", 0) [("pList", 0)] [] [] false (* list.c 323-326 *);
  mkFn "list.c" (C "AP_list_head") false ("int", 0) [("pList", 0); ("void", 2)] [] [] false (* list.c 330-339 *);
  mkFn "list.c" (C "AP_list_tail") false ("int", 0) [("pList", 0); ("void", 2)] [] [] false (* list.c 343-352 *);
  mkFn "list.c" (C "AP_list_print") false ("void", 0) [("char", 1); ("pList", 0)] [C "printf"] [] false (* list.c 366-380 *);
  mkFn "list.c" (C "AP_list_revprint") false ("void", 0) [("char", 1); ("pList", 0)] [C "printf"] [] false (* list.c 393-407 *);
  mkFn "list.c" (C "AP_list_search") false ("pListitem", 0) [("pList", 0); ("void", 1)] [] [] false (* list.c 420-435 *);
  mkFn "list.c" (C "AP_list_search_func") false ("pListitem", 0) [("pList", 0); ("int(void*,void*)", 1); ("void", 1)] [] [] true (* list.c 446-463 *);
  mkFn "list.c" (C "AP_list_next") false ("int", 0) [("pList", 0); ("void", 2); ("void", 2)] [] [] false (* list.c 478-498 *);
  mkFn "list.c" (C "AP_list_braindead_next") false ("void", 1) [("pList", 0); ("void", 2)] [C "AP_list_next"] [] false (* list.c 508-516 *);
  mkFn "list.c" (C "AP_list_duplicate") false ("pList", 0) [("pList", 0)] [C "AP_list_new"; C "AP_listitem_malloc"] [] false (* list.c 528-559 *);
  mkFn "list.c" (C "AP_list_apply") false ("int", 0) [("pList", 0); ("int(void*,void*)", 1); ("void", 1)] [] [] true (* list.c 563-581 *);
  mkFn "mpi.c" (F "mpi_init_fort" "MPI_INIT_FORT") false ("int", 0) [("int", 1); ("int", 1); ("int", 1); ("int", 1); ("int", 1); ("int", 1); ("int", 1); ("int", 1); ("int", 1); ("int", 1); ("int", 1); ("int", 1); ("int", 1); ("int", 1); ("int", 1); ("int", 1); ("int", 1); ("int", 1); ("int", 1); ("int", 1); ("int", 1); ("void", 1); ("void", 1); ("int", 1); ("void", 1); ("void", 1); ("int", 1); ("void", 1); ("void", 1); ("int", 1); ("void", 1); ("void", 1); ("int", 1); ("void", 1); ("void", 1); ("int", 1)] [C "MPI_Init"; C "fprintf"; C "Simpletype_length"; C "mpi_handle_to_datatype"; C "abort"] [] false (* mpi.c 29-156 *);
  mkFn "mpi.c" (C "MPI_Init_thread") false ("int", 0) [("int", 1); ("char", 3); ("int", 0); ("int", 1)] [C "MPI_Init"] [] false (* mpi.c 158-162 *);
  mkFn "mpi.c" (C "MPI_Init") false ("int", 0) [("int", 1); ("char", 3)] [C "fprintf"; C "abort"; C "mpi_comm_new"; F "mpi_get_fort_pointers" "MPI_GET_FORT_POINTERS"] [] false (* mpi.c 164-189 *);
  mkFn "mpi.c" (F "mpi_finalize" "MPI_FINALIZE") false ("int", 0) [("int", 1)] [C "MPI_Finalize"] [] false (* mpi.c 195-199 *);
  mkFn "mpi.c" (C "MPI_Finalize") false ("int", 0) [] [C "mpi_destroy_handles"] [] false (* mpi.c 211-218 *);
  mkFn "mpi.c" (F "mpi_abort" "MPI_ABORT") false ("int", 0) [("int", 1); ("int", 1); ("int", 1)] [C "MPI_Abort"] [] false (* mpi.c 224-228 *);
  mkFn "mpi.c" (C "MPI_Abort") false ("int", 0) [("MPI_Comm", 0); ("int", 0)] [C "fprintf"; C "exit"] [] false (* mpi.c 232-236 *);
  mkFn "mpi.c" (F "mpi_error_string" "MPI_ERROR_STRING") false ("int", 0) [("int", 1); ("char", 1); ("int", 1); ("int", 1)] [C "MPI_Error_string"] [] false (* mpi.c 243-249 *);
  mkFn "mpi.c" (C "MPI_Error_string") false ("int", 0) [("int", 0); ("char", 1); ("int", 1)] [C "sprintf"; C "strlen"] [] false (* mpi.c 252-258 *);
  mkFn "mpi.c" (F "mpi_get_processor_name" "MPI_GET_PROCESSOR_NAME") false ("int", 0) [("char", 1); ("int", 1); ("int", 1)] [C "MPI_Get_processor_name"] [] false (* mpi.c 264-269 *);
  mkFn "mpi.c" (C "MPI_Get_processor_name") false ("int", 0) [("char", 1); ("int", 1)] [C "gethostname"; C "strncpy"; C "strlen"] [] false (* mpi.c 272-286 *);
  mkFn "mpi.c" (F "mpi_initialized" "MPI_INITIALIZED") false ("int", 0) [("int", 1); ("int", 1)] [C "MPI_Initialized"] [] false (* mpi.c 292-296 *);
  mkFn "mpi.c" (C "MPI_Initialized") false ("int", 0) [("int", 1)] [] [] false (* mpi.c 299-304 *);
  mkFn "mpi.c" (C "MPI_Get_library_version") false ("int", 0) [("char", 1); ("int", 1)] [C "strncpy"; C "strlen"] [] false (* mpi.c 309-318 *);
  mkFn "mpi.c" (F "mpi_get_library_version" "MPI_GET_LIBRARY_VERSION") false ("void", 0) [("char", 1); ("int", 1); ("int", 1)] [C "MPI_Get_library_version"; C "abort"; C "memset"] [] false (* mpi.c 321-332 *);
  mkFn "mpi.c" (C "MPI_Get_Version") false ("int", 0) [("int", 1); ("int", 1)] [] [] false (* mpi.c 336-342 *);
  mkFn "mpi.c" (F "mpi_get_version" "MPI_GET_VERSION") false ("void", 0) [("int", 1); ("int", 1); ("int", 1)] [C "MPI_Get_Version"] [] false (* mpi.c 345-351 *);
  mkFn "mpi.c" (F "mpi_save_fort_pointers" "MPI_SAVE_FORT_POINTERS") false ("void", 0) [("int", 1); ("int", 1); ("int", 1)] [] [] false (* mpi.c 356-361 *);
  mkFn "mpi.c" (C "mpi_c_status") false ("MPI_Status", 1) [("int", 1)] [] [] false (* mpi.c 365-371 *);
  mkFn "mpi.c" (C "mpi_c_statuses") false ("MPI_Status", 1) [("int", 1)] [] [] false (* mpi.c 374-380 *);
  mkFn "mpi.c" (C "mpi_c_in_place") false ("void", 1) [("void", 1)] [] [] false (* mpi.c 383-389 *);
  mkFn "op.c" (F "mpi_op_create" "MPI_OP_CREATE") false ("int", 0) [("MPI_User_function", 1); ("int", 1); ("int", 1); ("int", 1)] [C "MPI_Op_create"] [] false (* op.c 8-12 *);
  mkFn "op.c" (C "MPI_Op_create") false ("int", 0) [("MPI_User_function", 1); ("int", 0); ("MPI_Op", 1)] [] [] false (* op.c 14-18 *);
  mkFn "op.c" (F "mpi_op_free" "MPI_OP_FREE") false ("int", 0) [("int", 1); ("int", 1)] [C "MPI_Op_free"] [] false (* op.c 20-24 *);
  mkFn "op.c" (C "MPI_Op_free") false ("int", 0) [("MPI_Op", 1)] [] [] false (* op.c 26-29 *);
  mkFn "pack.c" (F "mpi_pack" "MPI_PACK") false ("int", 0) [("void", 1); ("int", 1); ("int", 1); ("void", 1); ("int", 1); ("int", 1); ("int", 1); ("int", 1)] [C "MPI_Pack"] [] false (* pack.c 12-19 *);
  mkFn "pack.c" (C "MPI_Pack") false ("int", 0) [("void", 1); ("int", 0); ("MPI_Datatype", 0); ("void", 1); ("int", 0); ("int", 1); ("MPI_Comm", 0)] [C "mpi_handle_to_datatype"; C "mpi_handle_to_ptr"; C "Pack"] [] false (* pack.c 23-34 *);
  mkFn "pack.c" (C "Pack") false ("int", 0) [("void", 1); ("int", 0); ("Datatype", 0); ("void", 1); ("int", 0); ("int", 1); ("Comm", 1)] [C "Type_extent"; C "Simpletype_length"; C "printf"; C "exit"; C "memcpy"] [] false (* pack.c 38-60 *);
  mkFn "pack.c" (C "Pack_size") false ("int", 0) [("int", 0); ("Datatype", 0); ("Comm", 1); ("MPI_Aint", 1)] [C "Simpletype_length"; C "printf"] [] false (* pack.c 62-75 *);
  mkFn "pack.c" (F "mpi_pack_size" "MPI_PACK_SIZE") false ("int", 0) [("int", 1); ("int", 1); ("int", 1); ("MPI_Aint", 1); ("int", 1)] [C "MPI_Pack_size"] [] false (* pack.c 77-82 *);
  mkFn "pack.c" (C "MPI_Pack_size") false ("int", 0) [("int", 0); ("MPI_Datatype", 0); ("MPI_Comm", 0); ("MPI_Aint", 1)] [C "mpi_handle_to_datatype"; C "mpi_handle_to_ptr"; C "Pack_size"] [] false (* pack.c 84-94 *);
  mkFn "pack.c" (F "mpi_unpack" "MPI_UNPACK") false ("int", 0) [("void", 1); ("int", 1); ("int", 1); ("void", 1); ("int", 1); ("int", 1); ("int", 1); ("int", 1)] [C "MPI_Unpack"] [] false (* pack.c 103-111 *);
  mkFn "pack.c" (C "MPI_Unpack") false ("int", 0) [("void", 1); ("int", 0); ("int", 1); ("void", 1); ("int", 0); ("MPI_Datatype", 0); ("MPI_Comm", 0)] [C "mpi_handle_to_datatype"; C "mpi_handle_to_ptr"; C "Unpack"] [] false (* pack.c 114-124 *);
  mkFn "pack.c" (C "Unpack") false ("int", 0) [("void", 1); ("int", 0); ("int", 1); ("void", 1); ("int", 0); ("Datatype", 0); ("Comm", 1)] [C "Type_extent"; C "Simpletype_length"; C "printf"; C "exit"; C "memcpy"] [] false (* pack.c 126-149 *);
  mkFn "probe.c" (C "mpi_match_send") true ("int", 0) [("void", 1); ("void", 1)] [] [] false (* probe.c 4-8 *);
  mkFn "probe.c" (F "mpi_iprobe" "MPI_IPROBE") false ("int", 0) [("int", 1); ("int", 1); ("int", 1); ("int", 1); ("int", 1); ("int", 1)] [C "MPI_Iprobe"; C "mpi_c_status"] [] false (* probe.c 10-15 *);
  mkFn "probe.c" (C "MPI_Iprobe") false ("int", 0) [("int", 0); ("int", 0); ("MPI_Comm", 0); ("int", 1); ("MPI_Status", 1)] [C "mpi_handle_to_ptr"; C "fprintf"; C "abort"; C "AP_list_search_func"; C "AP_listitem_data"] [C "mpi_match_send"] false (* probe.c 21-60 *);
  mkFn "probe.c" (F "mpi_probe" "MPI_PROBE") false ("int", 0) [("int", 1); ("int", 1); ("int", 1); ("int", 1); ("int", 1)] [C "MPI_Probe"; C "mpi_c_status"] [] false (* probe.c 66-71 *);
  mkFn "probe.c" (C "MPI_Probe") false ("int", 0) [("int", 0); ("int", 0); ("MPI_Comm", 0); ("MPI_Status", 1)] [C "MPI_Iprobe"; C "fprintf"; C "abort"] [] false (* probe.c 75-89 *);
  mkFn "recv.c" (C "mpi_match_send") true ("int", 0) [("void", 1); ("void", 1)] [] [] false (* recv.c 13-17 *);
  mkFn "recv.c" (F "mpi_irecv" "MPI_IRECV") false ("int", 0) [("void", 1); ("int", 1); ("int", 1); ("int", 1); ("int", 1); ("int", 1); ("int", 1); ("int", 1)] [C "MPI_Irecv"] [] false (* recv.c 27-36 *);
  mkFn "recv.c" (C "MPI_Irecv") false ("int", 0) [("void", 1); ("int", 0); ("MPI_Datatype", 0); ("int", 0); ("int", 0); ("MPI_Comm", 0); ("MPI_Request", 1)] [C "mpi_handle_to_ptr"; C "fprintf"; C "abort"; C "mpi_alloc_handle"; C "AP_list_search_func"; C "AP_listitem_data"; C "AP_list_delete_item"; C "copy_data2"; C "AP_list_append"] [C "mpi_match_send"] false (* recv.c 40-106 *);
  mkFn "recv.c" (F "mpi_recv" "MPI_RECV") false ("int", 0) [("void", 1); ("int", 1); ("int", 1); ("int", 1); ("int", 1); ("int", 1); ("int", 1); ("int", 1)] [C "MPI_Recv"; C "mpi_c_status"] [] false (* recv.c 112-119 *);
  mkFn "recv.c" (C "MPI_Recv") false ("int", 0) [("void", 1); ("int", 0); ("MPI_Datatype", 0); ("int", 0); ("int", 0); ("MPI_Comm", 0); ("MPI_Status", 1)] [C "MPI_Irecv"; C "MPI_Wait"] [] false (* recv.c 123-141 *);
  mkFn "req.c" (F "mpi_test" "MPI_TEST") false ("int", 0) [("int", 1); ("int", 1); ("int", 1); ("int", 1)] [C "MPI_Test"; C "mpi_c_status"] [] false (* req.c 10-15 *);
  mkFn "req.c" (C "MPI_Test") false ("int", 0) [("MPI_Request", 1); ("int", 1); ("MPI_Status", 1)] [C "mpi_handle_to_ptr"; C "mpi_free_handle"] [] false (* req.c 19-52 *);
  mkFn "req.c" (F "mpi_wait" "MPI_WAIT") false ("int", 0) [("int", 1); ("int", 1); ("int", 1)] [C "MPI_Wait"; C "mpi_c_status"] [] false (* req.c 56-60 *);
  mkFn "req.c" (C "MPI_Wait") false ("int", 0) [("MPI_Request", 1); ("MPI_Status", 1)] [C "MPI_Test"; C "fprintf"; C "abort"] [] false (* req.c 64-77 *);
  mkFn "req.c" (F "mpi_waitany" "MPI_WAITANY") false ("int", 0) [("int", 1); ("int", 1); ("int", 1); ("int", 1); ("int", 1)] [C "MPI_Waitany"; C "mpi_c_status"] [] false (* req.c 83-89 *);
  mkFn "req.c" (C "MPI_Waitany") false ("int", 0) [("int", 0); ("MPI_Request", 1); ("int", 1); ("MPI_Status", 1)] [C "MPI_Testany"; C "fprintf"; C "abort"] [] false (* req.c 93-110 *);
  mkFn "req.c" (F "mpi_testany" "MPI_TESTANY") false ("int", 0) [("int", 1); ("int", 1); ("int", 1); ("int", 1); ("int", 1); ("int", 1)] [C "MPI_Testany"; C "mpi_c_status"] [] false (* req.c 117-124 *);
  mkFn "req.c" (C "MPI_Testany") false ("int", 0) [("int", 0); ("MPI_Request", 1); ("int", 1); ("int", 1); ("MPI_Status", 1)] [C "MPI_Test"] [] false (* req.c 126-143 *);
  mkFn "req.c" (F "mpi_testall" "MPI_TESTALL") false ("int", 0) [("int", 1); ("int", 1); ("int", 1); ("int", 1); ("int", 1)] [C "MPI_Testall"; C "mpi_c_statuses"] [] false (* req.c 149-156 *);
  mkFn "req.c" (C "MPI_Testall") false ("int", 0) [("int", 0); ("MPI_Request", 1); ("int", 1); ("MPI_Status", 1)] [C "MPI_Test"] [] false (* req.c 158-175 *);
  mkFn "req.c" (F "mpi_waitall" "MPI_WAITALL") false ("int", 0) [("int", 1); ("int", 1); ("int", 1); ("int", 1)] [C "MPI_Waitall"; C "mpi_c_statuses"] [] false (* req.c 182-189 *);
  mkFn "req.c" (C "MPI_Waitall") false ("int", 0) [("int", 0); ("MPI_Request", 1); ("MPI_Status", 1)] [C "MPI_Test"; C "fprintf"; C "abort"] [] false (* req.c 193-211 *);
  mkFn "req.c" (F "mpi_testsome" "MPI_TESTSOME") false ("int", 0) [("int", 1); ("int", 1); ("int", 1); ("int", 1); ("int", 1); ("int", 1)] [C "MPI_Testsome"; C "mpi_c_statuses"] [] false (* req.c 217-224 *);
  mkFn "req.c" (C "MPI_Testsome") false ("int", 0) [("int", 0); ("MPI_Request", 1); ("int", 1); ("int", 1); ("MPI_Status", 1)] [C "MPI_Test"] [] false (* req.c 226-244 *);
  mkFn "req.c" (F "mpi_waitsome" "MPI_WAITSOME") false ("int", 0) [("int", 1); ("int", 1); ("int", 1); ("int", 1); ("int", 1); ("int", 1)] [C "MPI_Waitsome"; C "mpi_c_statuses"] [] false (* req.c 250-257 *);
  mkFn "req.c" (C "MPI_Waitsome") false ("int", 0) [("int", 0); ("MPI_Request", 1); ("int", 1); ("int", 1); ("MPI_Status", 1)] [C "MPI_Testsome"; C "fprintf"; C "abort"] [] false (* req.c 259-272 *);
  mkFn "req.c" (F "mpi_request_free" "MPI_REQUEST_FREE") false ("int", 0) [("int", 1); ("int", 1)] [C "MPI_Request_free"] [] false (* req.c 278-283 *);
  mkFn "req.c" (C "MPI_Request_free") false ("int", 0) [("MPI_Request", 1)] [C "mpi_free_handle"] [] false (* req.c 285-290 *);
  mkFn "req.c" (C "MPI_Request_f2c") false ("MPI_Request", 0) [("MPI_Fint", 0)] [] [] false (* req.c 297-300 *);
  mkFn "req.c" (C "MPI_Request_c2f") false ("MPI_Fint", 0) [("MPI_Request", 0)] [] [] false (* req.c 307-310 *);
  mkFn "send.c" (C "mpi_match_recv") true ("int", 0) [("void", 1); ("void", 1)] [] [] false (* send.c 11-15 *);
  mkFn "send.c" (F "mpi_isend" "MPI_ISEND") false ("int", 0) [("void", 1); ("int", 1); ("int", 1); ("int", 1); ("int", 1); ("int", 1); ("int", 1); ("int", 1)] [C "MPI_Isend"] [] false (* send.c 24-32 *);
  mkFn "send.c" (C "MPI_Isend") false ("int", 0) [("void", 1); ("int", 0); ("MPI_Datatype", 0); ("int", 0); ("int", 0); ("MPI_Comm", 0); ("MPI_Request", 1)] [C "mpi_handle_to_ptr"; C "fprintf"; C "abort"; C "mpi_alloc_handle"; C "AP_list_search_func"; C "AP_listitem_data"; C "AP_list_delete_item"; C "copy_data2"; C "AP_list_append"] [C "mpi_match_recv"] false (* send.c 36-95 *);
  mkFn "send.c" (F "mpi_send" "MPI_SEND") false ("int", 0) [("void", 1); ("int", 1); ("int", 1); ("int", 1); ("int", 1); ("int", 1); ("int", 1)] [C "MPI_Send"] [] false (* send.c 101-106 *);
  mkFn "send.c" (C "MPI_Send") false ("int", 0) [("void", 1); ("int", 0); ("MPI_Datatype", 0); ("int", 0); ("int", 0); ("MPI_Comm", 0)] [C "MPI_Isend"; C "MPI_Wait"] [] false (* send.c 110-126 *);
  mkFn "send.c" (F "mpi_ssend" "MPI_SSEND") false ("int", 0) [("void", 1); ("int", 1); ("int", 1); ("int", 1); ("int", 1); ("int", 1); ("int", 1)] [C "MPI_Send"] [] false (* send.c 134-139 *);
  mkFn "send.c" (C "MPI_Ssend") false ("int", 0) [("void", 1); ("int", 0); ("MPI_Datatype", 0); ("int", 0); ("int", 0); ("MPI_Comm", 0)] [C "MPI_Send"] [] false (* send.c 143-147 *);
  mkFn "send.c" (F "mpi_rsend" "MPI_RSEND") false ("int", 0) [("void", 1); ("int", 1); ("int", 1); ("int", 1); ("int", 1); ("int", 1); ("int", 1)] [C "MPI_Send"] [] false (* send.c 154-159 *);
  mkFn "send.c" (C "MPI_Rsend") false ("int", 0) [("void", 1); ("int", 0); ("MPI_Datatype", 0); ("int", 0); ("int", 0); ("MPI_Comm", 0)] [C "MPI_Send"] [] false (* send.c 163-167 *);
  mkFn "send.c" (F "mpi_irsend" "MPI_IRSEND") false ("int", 0) [("void", 1); ("int", 1); ("int", 1); ("int", 1); ("int", 1); ("int", 1); ("int", 1); ("int", 1)] [C "MPI_Irsend"] [] false (* send.c 176-184 *);
  mkFn "send.c" (C "MPI_Irsend") false ("int", 0) [("void", 1); ("int", 0); ("MPI_Datatype", 0); ("int", 0); ("int", 0); ("MPI_Comm", 0); ("MPI_Request", 1)] [C "MPI_Isend"; C "mpi_handle_to_ptr"; C "fprintf"; C "abort"] [] false (* send.c 188-211 *);
  mkFn "send.c" (F "mpi_sendrecv" "MPI_SENDRECV") false ("int", 0) [("void", 1); ("int", 1); ("int", 1); ("int", 1); ("int", 1); ("void", 1); ("int", 1); ("int", 1); ("int", 1); ("int", 1); ("int", 1); ("int", 1); ("int", 1)] [C "MPI_Sendrecv"; C "mpi_c_status"] [] false (* send.c 219-229 *);
  mkFn "send.c" (C "MPI_Sendrecv") false ("int", 0) [("void", 1); ("int", 0); ("MPI_Datatype", 0); ("int", 0); ("int", 0); ("void", 1); ("int", 0); ("MPI_Datatype", 0); ("int", 0); ("int", 0); ("MPI_Comm", 0); ("MPI_Status", 1)] [C "MPI_Irecv"; C "MPI_Send"; C "MPI_Wait"] [] false (* send.c 233-250 *);
  mkFn "time.c" (F "mpi_wtime" "MPI_WTIME") false ("double", 0) [] [C "MPI_Wtime"] [] false (* time.c 13-16 *);
  mkFn "time.c" (C "MPI_Wtime") false ("double", 0) [] [C "gettimeofday"; C "fprintf"; C "abort"] [] false (* time.c 20-32 *);
  mkFn "type.c" (C "mpi_handle_to_datatype") false ("Datatype", 1) [("int", 0)] [C "mpi_handle_to_ptr"] [] false (* type.c 33-39 *);
  mkFn "type.c" (C "calc_padding") false ("int", 0) [("Datatype", 0)] [C "Simpletype_length"] [] false (* type.c 46-60 *);
  mkFn "type.c" (C "Simpletype_length") false ("int", 0) [("Simpletype", 0)] [C "printf"; C "exit"] [] false (* type.c 68-141 *);
  mkFn "type.c" (C "calc_lb") false ("long", 0) [("Datatype", 0)] [] [] false (* type.c 147-161 *);
  mkFn "type.c" (C "calc_ub") false ("long", 0) [("Datatype", 0)] [C "Simpletype_length"] [] false (* type.c 168-183 *);
  mkFn "type.c" (C "Type_extent") false ("int", 0) [("Datatype", 0); ("MPI_Aint", 1)] [C "calc_padding"] [] false (* type.c 188-208 *);
  mkFn "type.c" (F "mpi_type_extent" "MPI_TYPE_EXTENT") false ("int", 0) [("int", 1); ("MPI_Aint", 1); ("int", 1)] [C "MPI_Type_extent"] [] false (* type.c 210-214 *);
  mkFn "type.c" (C "MPI_Type_extent") false ("int", 0) [("MPI_Datatype", 0); ("MPI_Aint", 1)] [C "mpi_handle_to_datatype"; C "Type_extent"] [] false (* type.c 216-221 *);
  mkFn "type.c" (C "Type_get_true_extent") false ("int", 0) [("Datatype", 0); ("MPI_Aint", 1)] [C "calc_padding"; C "calc_ub"; C "calc_lb"] [] false (* type.c 227-241 *);
  mkFn "type.c" (C "Copy_type") false ("int", 0) [("typepair", 1); ("typepair", 1)] [] [] false (* type.c 245-251 *);
  mkFn "type.c" (C "Type_struct") false ("int", 0) [("int", 0); ("int", 1); ("MPI_Aint", 1); ("Datatype", 1); ("Datatype", 1)] [C "malloc"; C "Type_extent"; C "Copy_type"; C "calc_lb"; C "calc_ub"] [] false (* type.c 259-389 *);
  mkFn "type.c" (F "mpi_type_struct" "MPI_TYPE_STRUCT") false ("int", 0) [("int", 1); ("int", 1); ("MPI_Aint", 1); ("int", 1); ("int", 1); ("int", 1)] [C "MPI_Type_struct"] [] false (* type.c 391-398 *);
  mkFn "type.c" (C "MPI_Type_struct") false ("int", 0) [("int", 0); ("int", 1); ("MPI_Aint", 1); ("MPI_Datatype", 1); ("MPI_Datatype", 1)] [C "mpi_handle_to_datatype"; C "mpi_alloc_handle"; C "Type_struct"] [] false (* type.c 403-419 *);
  mkFn "type.c" (C "Type_contiguous") false ("int", 0) [("int", 0); ("Datatype", 0); ("Datatype", 1)] [C "Type_extent"; C "Type_struct"] [] false (* type.c 427-445 *);
  mkFn "type.c" (F "mpi_type_contiguous" "MPI_TYPE_CONTIGUOUS") false ("int", 0) [("int", 1); ("int", 1); ("int", 1); ("int", 1)] [C "MPI_Type_contiguous"] [] false (* type.c 447-452 *);
  mkFn "type.c" (C "MPI_Type_contiguous") false ("int", 0) [("int", 0); ("MPI_Datatype", 0); ("MPI_Datatype", 1)] [C "mpi_handle_to_datatype"; C "mpi_alloc_handle"; C "Type_contiguous"] [] false (* type.c 454-462 *);
  mkFn "type.c" (C "Type_hvector") false ("int", 0) [("int", 0); ("int", 0); ("MPI_Aint", 0); ("Datatype", 0); ("Datatype", 1)] [C "Type_extent"; C "Type_struct"] [] false (* type.c 466-484 *);
  mkFn "type.c" (F "mpi_type_hvector" "MPI_TYPE_HVECTOR") false ("int", 0) [("int", 1); ("long", 1); ("long", 1); ("int", 1); ("int", 1); ("int", 1)] [C "MPI_Type_hvector"] [] false (* type.c 486-492 *);
  mkFn "type.c" (C "MPI_Type_hvector") false ("int", 0) [("int", 0); ("int", 0); ("MPI_Aint", 0); ("MPI_Datatype", 0); ("MPI_Datatype", 1)] [C "mpi_handle_to_datatype"; C "mpi_alloc_handle"; C "Type_hvector"] [] false (* type.c 494-502 *);
  mkFn "type.c" (F "mpi_type_create_hvector" "MPI_TYPE_CREATE_HVECTOR") false ("int", 0) [("int", 1); ("long", 1); ("long", 1); ("int", 1); ("int", 1); ("int", 1)] [C "MPI_Type_create_hvector"] [] false (* type.c 504-510 *);
  mkFn "type.c" (C "MPI_Type_create_hvector") false ("int", 0) [("int", 0); ("int", 0); ("MPI_Aint", 0); ("MPI_Datatype", 0); ("MPI_Datatype", 1)] [C "mpi_handle_to_datatype"; C "mpi_alloc_handle"; C "Type_hvector"] [] false (* type.c 512-520 *);
  mkFn "type.c" (C "Type_vector") false ("int", 0) [("int", 0); ("int", 0); ("int", 0); ("Datatype", 0); ("Datatype", 1)] [C "Type_extent"; C "Type_hvector"] [] false (* type.c 527-537 *);
  mkFn "type.c" (F "mpi_type_vector" "MPI_TYPE_VECTOR") false ("int", 0) [("int", 1); ("int", 1); ("int", 1); ("int", 1); ("int", 1); ("int", 1)] [C "MPI_Type_vector"] [] false (* type.c 539-546 *);
  mkFn "type.c" (C "MPI_Type_vector") false ("int", 0) [("int", 0); ("int", 0); ("int", 0); ("MPI_Datatype", 0); ("MPI_Datatype", 1)] [C "mpi_handle_to_datatype"; C "mpi_alloc_handle"; C "Type_vector"] [] false (* type.c 548-557 *);
  mkFn "type.c" (C "Type_hindexed") false ("int", 0) [("int", 0); ("int", 1); ("MPI_Aint", 1); ("Datatype", 0); ("Datatype", 1)] [C "Type_struct"] [] false (* type.c 562-574 *);
  mkFn "type.c" (F "mpi_type_hindexed" "MPI_TYPE_HINDEXED") false ("int", 0) [("int", 1); ("int", 1); ("MPI_Aint", 1); ("int", 1); ("int", 1); ("int", 1)] [C "MPI_Type_hindexed"] [] false (* type.c 576-583 *);
  mkFn "type.c" (C "MPI_Type_hindexed") false ("int", 0) [("int", 0); ("int", 1); ("MPI_Aint", 1); ("MPI_Datatype", 0); ("MPI_Datatype", 1)] [C "mpi_handle_to_datatype"; C "mpi_alloc_handle"; C "Type_hindexed"] [] false (* type.c 585-593 *);
  mkFn "type.c" (C "Type_indexed") false ("int", 0) [("int", 0); ("int", 1); ("int", 1); ("Datatype", 0); ("Datatype", 1)] [C "Type_extent"; C "Type_hindexed"] [] false (* type.c 598-612 *);
  mkFn "type.c" (F "mpi_type_indexed" "MPI_TYPE_INDEXED") false ("int", 0) [("int", 1); ("int", 1); ("int", 1); ("int", 1); ("int", 1); ("int", 1)] [C "MPI_Type_indexed"] [] false (* type.c 614-620 *);
  mkFn "type.c" (C "MPI_Type_indexed") false ("int", 0) [("int", 0); ("int", 1); ("int", 1); ("MPI_Datatype", 0); ("MPI_Datatype", 1)] [C "mpi_handle_to_datatype"; C "mpi_alloc_handle"; C "Type_indexed"] [] false (* type.c 623-631 *);
  mkFn "type.c" (C "Type_create_indexed_block") false ("int", 0) [("int", 0); ("int", 0); ("int", 1); ("Datatype", 0); ("Datatype", 1)] [C "Type_indexed"] [] false (* type.c 635-645 *);
  mkFn "type.c" (F "mpi_type_create_indexed_block" "MPI_TYPE_CREATE_INDEXED_BLOCK") false ("int", 0) [("int", 1); ("int", 1); ("int", 1); ("int", 1); ("int", 1); ("int", 1)] [C "MPI_Type_create_indexed_block"] [] false (* type.c 647-654 *);
  mkFn "type.c" (C "MPI_Type_create_indexed_block") false ("int", 0) [("int", 0); ("int", 0); ("int", 1); ("MPI_Datatype", 0); ("MPI_Datatype", 1)] [C "mpi_handle_to_datatype"; C "mpi_alloc_handle"; C "Type_create_indexed_block"] [] false (* type.c 656-664 *);
  mkFn "type.c" (C "Type_dup") false ("int", 0) [("Datatype", 0); ("Datatype", 1)] [C "malloc"; C "Copy_type"] [] false (* type.c 668-685 *);
  mkFn "type.c" (C "Type_size") false ("int", 0) [("Datatype", 0); ("int", 1)] [C "Simpletype_length"] [] false (* type.c 690-699 *);
  mkFn "type.c" (F "mpi_type_size" "MPI_TYPE_SIZE") false ("int", 0) [("int", 1); ("int", 1); ("int", 1)] [C "MPI_Type_size"] [] false (* type.c 701-705 *);
  mkFn "type.c" (C "MPI_Type_size") false ("int", 0) [("MPI_Datatype", 0); ("int", 1)] [C "mpi_handle_to_datatype"; C "Type_size"] [] false (* type.c 707-711 *);
  mkFn "type.c" (C "Type_lb") false ("int", 0) [("Datatype", 0); ("MPI_Aint", 1)] [] [] false (* type.c 716-720 *);
  mkFn "type.c" (F "mpi_type_lb" "MPI_TYPE_LB") false ("int", 0) [("int", 1); ("MPI_Aint", 1); ("int", 1)] [C "MPI_Type_lb"] [] false (* type.c 722-726 *);
  mkFn "type.c" (C "MPI_Type_lb") false ("int", 0) [("MPI_Datatype", 0); ("MPI_Aint", 1)] [C "mpi_handle_to_datatype"; C "Type_lb"] [] false (* type.c 728-733 *);
  mkFn "type.c" (C "Type_ub") false ("int", 0) [("Datatype", 0); ("MPI_Aint", 1)] [] [] false (* type.c 738-742 *);
  mkFn "type.c" (F "mpi_type_ub" "MPI_TYPE_UB") false ("int", 0) [("int", 1); ("MPI_Aint", 1); ("int", 1)] [C "MPI_Type_ub"] [] false (* type.c 744-748 *);
  mkFn "type.c" (C "MPI_Type_ub") false ("int", 0) [("MPI_Datatype", 0); ("MPI_Aint", 1)] [C "mpi_handle_to_datatype"; C "Type_ub"] [] false (* type.c 750-755 *);
  mkFn "type.c" (C "FGet_address") false ("int", 0) [("void", 1); ("long", 1)] [] [] false (* type.c 761-765 *);
  mkFn "type.c" (F "mpi_get_address" "MPI_ADDRESS") false ("int", 0) [("void", 1); ("long", 1); ("int", 1)] [C "FGet_address"] [] false (* type.c 767-771 *);
  mkFn "type.c" (C "MPI_Get_address") false ("int", 0) [("void", 1); ("MPI_Aint", 1)] [] [] false (* type.c 773-777 *);
  mkFn "type.c" (F "mpi_address" "MPI_ADDRESS") false ("int", 0) [("void", 1); ("long", 1); ("int", 1)] [C "FGet_address"] [] false (* type.c 779-784 *);
  mkFn "type.c" (C "MPI_Address") false ("int", 0) [("void", 1); ("MPI_Aint", 1)] [C "MPI_Get_address"] [] false (* type.c 786-789 *);
  mkFn "type.c" (F "mpi_type_commit" "MPI_TYPE_COMMIT") false ("int", 0) [("int", 1); ("int", 1)] [C "MPI_Type_commit"] [] false (* type.c 793-797 *);
  mkFn "type.c" (C "MPI_Type_commit") false ("int", 0) [("MPI_Datatype", 1)] [C "mpi_handle_to_datatype"] [] false (* type.c 799-805 *);
  mkFn "type.c" (F "mpi_type_free" "MPI_TYPE_FREE") false ("int", 0) [("int", 1); ("int", 1)] [C "MPI_Type_free"] [] false (* type.c 808-812 *);
  mkFn "type.c" (C "MPI_Type_free") false ("int", 0) [("MPI_Datatype", 1)] [C "mpi_handle_to_datatype"; C "free"; C "mpi_free_handle"] [] false (* type.c 814-823 *);
  mkFn "fort.F90" (F "mpi_init_thread" "MPI_INIT_THREAD") false ("void", 0) [("int", 1); ("int", 1); ("int", 1)] [F "mpi_init" "MPI_INIT"] [] false (* fort.F90 1-8 *);
  mkFn "fort.F90" (F "mpi_init" "MPI_INIT") false ("void", 0) [("int", 1)] [F "mpi_init_fort" "MPI_INIT_FORT"] [] false (* fort.F90 10-51 *);
  mkFn "fort.F90" (F "mpi_get_fort_pointers" "MPI_GET_FORT_POINTERS") false ("void", 0) [] [F "mpi_save_fort_pointers" "MPI_SAVE_FORT_POINTERS"] [] false (* fort.F90 62-68 *)
].
(** With TEST_INTERNAL there are three more; each line cites its own (type.c 829-866). *)
Definition internal : list fn := [
  mkFn "type.c" (F "print_typemap" "PRINT_TYPEMAP") false ("int", 0) [("int", 1); ("int", 1)] [C "print_typemap"] [] false (* type.c 830-834 *);
  mkFn "type.c" (C "print_typemap") false ("int", 0) [("MPI_Datatype", 0)] [C "mpi_handle_to_datatype"; C "Pprint_typemap"] [] false (* type.c 836-841 *);
  mkFn "type.c" (C "Pprint_typemap") false ("int", 0) [("Datatype", 0)] [C "Type_extent"; C "printf"; C "calc_padding"; C "Simpletype_length"] [] false (* type.c 843-865 *)
].
(** The routines of the C library that are used, e.g. malloc in handles.c 83; sleep is used by tests/ctest_old.c 170 only. *)
Definition standard : list string := ["abort"; "exit"; "fprintf"; "free"; "gethostname"; "gettimeofday"; "malloc"; "memcpy"; "memset"; "perror"; "printf"; "sleep"; "sprintf"; "strlen"; "strncpy"].
(** The declarations in mpi.h, mpiP.h, type.h and list.h; each line cites its own (mpi.h 255 to list.h 43). *)
Definition declarations : list decl := [
  mkDecl "mpi.h" (C "MPI_Get_library_version") ("int", 0) [("char", 1); ("int", 1)] (* mpi.h 255 *);
  mkDecl "mpi.h" (C "MPI_Intercomm_create") ("int", 0) [("MPI_Comm", 0); ("int", 0); ("MPI_Comm", 0); ("int", 0); ("int", 0); ("MPI_Comm", 1)] (* mpi.h 257 *);
  mkDecl "mpi.h" (C "MPI_Intercomm_merge") ("int", 0) [("MPI_Comm", 0); ("int", 0); ("MPI_Comm", 1)] (* mpi.h 260 *);
  mkDecl "mpi.h" (C "MPI_Cart_create") ("int", 0) [("MPI_Comm", 0); ("int", 0); ("int", 1); ("int", 1); ("int", 0); ("MPI_Comm", 1)] (* mpi.h 262 *);
  mkDecl "mpi.h" (C "MPI_Cart_get") ("int", 0) [("MPI_Comm", 0); ("int", 0); ("int", 1); ("int", 1); ("int", 1)] (* mpi.h 264 *);
  mkDecl "mpi.h" (C "MPI_Cart_coords") ("int", 0) [("MPI_Comm", 0); ("int", 0); ("int", 0); ("int", 1)] (* mpi.h 266 *);
  mkDecl "mpi.h" (C "MPI_Dims_create") ("int", 0) [("int", 0); ("int", 0); ("int", 1)] (* mpi.h 268 *);
  mkDecl "mpi.h" (C "MPI_Barrier") ("int", 0) [("MPI_Comm", 0)] (* mpi.h 270 *);
  mkDecl "mpi.h" (C "MPI_Bcast") ("int", 0) [("void", 1); ("int", 0); ("MPI_Datatype", 0); ("int", 0); ("MPI_Comm", 0)] (* mpi.h 271 *);
  mkDecl "mpi.h" (C "MPI_Gather") ("int", 0) [("void", 1); ("int", 0); ("MPI_Datatype", 0); ("void", 1); ("int", 0); ("MPI_Datatype", 0); ("int", 0); ("MPI_Comm", 0)] (* mpi.h 273 *);
  mkDecl "mpi.h" (C "MPI_Gatherv") ("int", 0) [("void", 1); ("int", 0); ("MPI_Datatype", 0); ("void", 1); ("int", 1); ("int", 1); ("MPI_Datatype", 0); ("int", 0); ("MPI_Comm", 0)] (* mpi.h 276 *);
  mkDecl "mpi.h" (C "MPI_Allgather") ("int", 0) [("void", 1); ("int", 0); ("MPI_Datatype", 0); ("void", 1); ("int", 0); ("MPI_Datatype", 0); ("MPI_Comm", 0)] (* mpi.h 279 *);
  mkDecl "mpi.h" (C "MPI_Allgatherv") ("int", 0) [("void", 1); ("int", 0); ("MPI_Datatype", 0); ("void", 1); ("int", 1); ("int", 1); ("MPI_Datatype", 0); ("MPI_Comm", 0)] (* mpi.h 282 *);
  mkDecl "mpi.h" (C "MPI_Scatter") ("int", 0) [("void", 1); ("int", 0); ("MPI_Datatype", 0); ("void", 1); ("int", 0); ("MPI_Datatype", 0); ("int", 0); ("MPI_Comm", 0)] (* mpi.h 285 *);
  mkDecl "mpi.h" (C "MPI_Scatterv") ("int", 0) [("void", 1); ("int", 1); ("int", 1); ("MPI_Datatype", 0); ("void", 1); ("int", 0); ("MPI_Datatype", 0); ("int", 0); ("MPI_Comm", 0)] (* mpi.h 288 *);
  mkDecl "mpi.h" (C "MPI_Reduce") ("int", 0) [("void", 1); ("void", 1); ("int", 0); ("MPI_Datatype", 0); ("MPI_Op", 0); ("int", 0); ("MPI_Comm", 0)] (* mpi.h 291 *);
  mkDecl "mpi.h" (C "MPI_Reduce_scatter") ("int", 0) [("void", 1); ("void", 1); ("int", 1); ("MPI_Datatype", 0); ("MPI_Op", 0); ("MPI_Comm", 0)] (* mpi.h 293 *);
  mkDecl "mpi.h" (C "MPI_Allreduce") ("int", 0) [("void", 1); ("void", 1); ("int", 0); ("MPI_Datatype", 0); ("MPI_Op", 0); ("MPI_Comm", 0)] (* mpi.h 295 *);
  mkDecl "mpi.h" (C "MPI_Scan") ("int", 0) [("void", 1); ("void", 1); ("int", 0); ("MPI_Datatype", 0); ("MPI_Op", 0); ("MPI_Comm", 0)] (* mpi.h 297 *);
  mkDecl "mpi.h" (C "MPI_Alltoall") ("int", 0) [("void", 1); ("int", 0); ("MPI_Datatype", 0); ("void", 1); ("int", 0); ("MPI_Datatype", 0); ("MPI_Comm", 0)] (* mpi.h 299 *);
  mkDecl "mpi.h" (C "MPI_Alltoallv") ("int", 0) [("void", 1); ("int", 1); ("int", 1); ("MPI_Datatype", 0); ("void", 1); ("int", 1); ("int", 1); ("MPI_Datatype", 0); ("MPI_Comm", 0)] (* mpi.h 302 *);
  mkDecl "mpi.h" (C "MPI_Alltoallw") ("int", 0) [("void", 1); ("int", 1); ("int", 1); ("MPI_Datatype", 1); ("void", 1); ("int", 1); ("int", 1); ("MPI_Datatype", 1); ("MPI_Comm", 0)] (* mpi.h 307 *);
  mkDecl "mpi.h" (C "MPI_Op_create") ("int", 0) [("MPI_User_function", 1); ("int", 0); ("MPI_Op", 1)] (* mpi.h 314 *);
  mkDecl "mpi.h" (C "MPI_Op_f2c") ("MPI_Op", 0) [("MPI_Fint", 0)] (* mpi.h 316 *);
  mkDecl "mpi.h" (C "MPI_Op_c2f") ("MPI_Fint", 0) [("MPI_Op", 0)] (* mpi.h 317 *);
  mkDecl "mpi.h" (C "mpi_comm_new") ("MPI_Comm", 0) [] (* mpi.h 318 *);
  mkDecl "mpi.h" (C "MPI_Op_free") ("int", 0) [("MPI_Op", 1)] (* mpi.h 319 *);
  mkDecl "mpi.h" (C "MPI_Comm_free") ("int", 0) [("MPI_Comm", 1)] (* mpi.h 320 *);
  mkDecl "mpi.h" (C "MPI_Comm_size") ("int", 0) [("MPI_Comm", 0); ("int", 1)] (* mpi.h 321 *);
  mkDecl "mpi.h" (C "MPI_Comm_rank") ("int", 0) [("MPI_Comm", 0); ("int", 1)] (* mpi.h 322 *);
  mkDecl "mpi.h" (C "MPI_Comm_dup") ("int", 0) [("MPI_Comm", 0); ("MPI_Comm", 1)] (* mpi.h 323 *);
  mkDecl "mpi.h" (C "MPI_Comm_create") ("int", 0) [("MPI_Comm", 0); ("MPI_Group", 0); ("MPI_Comm", 1)] (* mpi.h 324 *);
  mkDecl "mpi.h" (C "MPI_Comm_split") ("int", 0) [("MPI_Comm", 0); ("int", 0); ("int", 0); ("MPI_Comm", 1)] (* mpi.h 325 *);
  mkDecl "mpi.h" (C "MPI_Comm_group") ("int", 0) [("MPI_Comm", 0); ("MPI_Group", 1)] (* mpi.h 326 *);
  mkDecl "mpi.h" (C "MPI_Comm_f2c") ("MPI_Comm", 0) [("MPI_Fint", 0)] (* mpi.h 327 *);
  mkDecl "mpi.h" (C "MPI_Comm_c2f") ("MPI_Fint", 0) [("MPI_Comm", 0)] (* mpi.h 328 *);
  mkDecl "mpi.h" (C "MPI_Group_incl") ("int", 0) [("MPI_Group", 0); ("int", 0); ("int", 1); ("MPI_Group", 1)] (* mpi.h 329 *);
  mkDecl "mpi.h" (C "MPI_Group_range_incl") ("int", 0) [("MPI_Group", 0); ("int", 0); ("int", 2); ("MPI_Group", 1)] (* mpi.h 330 *);
  mkDecl "mpi.h" (C "MPI_Group_union") ("int", 0) [("MPI_Group", 0); ("MPI_Group", 0); ("MPI_Group", 1)] (* mpi.h 332 *);
  mkDecl "mpi.h" (C "MPI_Group_intersection") ("int", 0) [("MPI_Group", 0); ("MPI_Group", 0); ("MPI_Group", 1)] (* mpi.h 333 *);
  mkDecl "mpi.h" (C "MPI_Group_difference") ("int", 0) [("MPI_Group", 0); ("MPI_Group", 0); ("MPI_Group", 1)] (* mpi.h 335 *);
  mkDecl "mpi.h" (C "MPI_Group_free") ("int", 0) [("MPI_Group", 1)] (* mpi.h 337 *);
  mkDecl "mpi.h" (C "MPI_Group_translate_ranks") ("int", 0) [("MPI_Group", 0); ("int", 0); ("int", 1); ("MPI_Group", 0); ("int", 1)] (* mpi.h 338 *);
  mkDecl "mpi.h" (C "MPI_Group_f2c") ("MPI_Group", 0) [("MPI_Fint", 0)] (* mpi.h 340 *);
  mkDecl "mpi.h" (C "MPI_Group_c2f") ("MPI_Fint", 0) [("MPI_Group", 0)] (* mpi.h 341 *);
  mkDecl "mpi.h" (C "MPI_Init") ("int", 0) [("int", 1); ("char", 3)] (* mpi.h 343 *);
  mkDecl "mpi.h" (C "MPI_Finalize") ("int", 0) [] (* mpi.h 344 *);
  mkDecl "mpi.h" (C "MPI_Abort") ("int", 0) [("MPI_Comm", 0); ("int", 0)] (* mpi.h 345 *);
  mkDecl "mpi.h" (C "MPI_Error_string") ("int", 0) [("int", 0); ("char", 1); ("int", 1)] (* mpi.h 346 *);
  mkDecl "mpi.h" (C "MPI_Get_processor_name") ("int", 0) [("char", 1); ("int", 1)] (* mpi.h 347 *);
  mkDecl "mpi.h" (C "MPI_Info_create") ("int", 0) [("MPI_Info", 1)] (* mpi.h 349 *);
  mkDecl "mpi.h" (C "MPI_Info_set") ("int", 0) [("MPI_Info", 0); ("char", 1); ("char", 1)] (* mpi.h 350 *);
  mkDecl "mpi.h" (C "MPI_Initialized") ("int", 0) [("int", 1)] (* mpi.h 352 *);
  mkDecl "mpi.h" (C "MPI_Pack") ("int", 0) [("void", 1); ("int", 0); ("MPI_Datatype", 0); ("void", 1); ("int", 0); ("int", 1); ("MPI_Comm", 0)] (* mpi.h 353 *);
  mkDecl "mpi.h" (C "MPI_Unpack") ("int", 0) [("void", 1); ("int", 0); ("int", 1); ("void", 1); ("int", 0); ("MPI_Datatype", 0); ("MPI_Comm", 0)] (* mpi.h 355 *);
  mkDecl "mpi.h" (C "MPI_Irecv") ("int", 0) [("void", 1); ("int", 0); ("MPI_Datatype", 0); ("int", 0); ("int", 0); ("MPI_Comm", 0); ("MPI_Request", 1)] (* mpi.h 358 *);
  mkDecl "mpi.h" (C "MPI_Recv") ("int", 0) [("void", 1); ("int", 0); ("MPI_Datatype", 0); ("int", 0); ("int", 0); ("MPI_Comm", 0); ("MPI_Status", 1)] (* mpi.h 360 *);
  mkDecl "mpi.h" (C "MPI_Test") ("int", 0) [("MPI_Request", 1); ("int", 1); ("MPI_Status", 1)] (* mpi.h 363 *);
  mkDecl "mpi.h" (C "MPI_Wait") ("int", 0) [("MPI_Request", 1); ("MPI_Status", 1)] (* mpi.h 364 *);
  mkDecl "mpi.h" (C "MPI_Testany") ("int", 0) [("int", 0); ("MPI_Request", 1); ("int", 1); ("int", 1); ("MPI_Status", 1)] (* mpi.h 365 *);
  mkDecl "mpi.h" (C "MPI_Waitany") ("int", 0) [("int", 0); ("MPI_Request", 1); ("int", 1); ("MPI_Status", 1)] (* mpi.h 367 *);
  mkDecl "mpi.h" (C "MPI_Testall") ("int", 0) [("int", 0); ("MPI_Request", 1); ("int", 1); ("MPI_Status", 1)] (* mpi.h 369 *);
  mkDecl "mpi.h" (C "MPI_Waitall") ("int", 0) [("int", 0); ("MPI_Request", 1); ("MPI_Status", 1)] (* mpi.h 371 *);
  mkDecl "mpi.h" (C "MPI_Request_f2c") ("MPI_Request", 0) [("MPI_Fint", 0)] (* mpi.h 373 *);
  mkDecl "mpi.h" (C "MPI_Request_c2f") ("MPI_Fint", 0) [("MPI_Request", 0)] (* mpi.h 374 *);
  mkDecl "mpi.h" (C "MPI_Testsome") ("int", 0) [("int", 0); ("MPI_Request", 1); ("int", 1); ("int", 1); ("MPI_Status", 1)] (* mpi.h 375 *);
  mkDecl "mpi.h" (C "MPI_Waitsome") ("int", 0) [("int", 0); ("MPI_Request", 1); ("int", 1); ("int", 1); ("MPI_Status", 1)] (* mpi.h 378 *);
  mkDecl "mpi.h" (C "MPI_Request_free") ("int", 0) [("MPI_Request", 1)] (* mpi.h 381 *);
  mkDecl "mpi.h" (C "MPI_Isend") ("int", 0) [("void", 1); ("int", 0); ("MPI_Datatype", 0); ("int", 0); ("int", 0); ("MPI_Comm", 0); ("MPI_Request", 1)] (* mpi.h 382 *);
  mkDecl "mpi.h" (C "MPI_Send") ("int", 0) [("void", 1); ("int", 0); ("MPI_Datatype", 0); ("int", 0); ("int", 0); ("MPI_Comm", 0)] (* mpi.h 384 *);
  mkDecl "mpi.h" (C "MPI_Ssend") ("int", 0) [("void", 1); ("int", 0); ("MPI_Datatype", 0); ("int", 0); ("int", 0); ("MPI_Comm", 0)] (* mpi.h 386 *);
  mkDecl "mpi.h" (C "MPI_Rsend") ("int", 0) [("void", 1); ("int", 0); ("MPI_Datatype", 0); ("int", 0); ("int", 0); ("MPI_Comm", 0)] (* mpi.h 388 *);
  mkDecl "mpi.h" (C "MPI_Irsend") ("int", 0) [("void", 1); ("int", 0); ("MPI_Datatype", 0); ("int", 0); ("int", 0); ("MPI_Comm", 0); ("MPI_Request", 1)] (* mpi.h 390 *);
  mkDecl "mpi.h" (C "MPI_Sendrecv") ("int", 0) [("void", 1); ("int", 0); ("MPI_Datatype", 0); ("int", 0); ("int", 0); ("void", 1); ("int", 0); ("MPI_Datatype", 0); ("int", 0); ("int", 0); ("MPI_Comm", 0); ("MPI_Status", 1)] (* mpi.h 392 *);
  mkDecl "mpi.h" (C "MPI_Probe") ("int", 0) [("int", 0); ("int", 0); ("MPI_Comm", 0); ("MPI_Status", 1)] (* mpi.h 398 *);
  mkDecl "mpi.h" (C "MPI_Iprobe") ("int", 0) [("int", 0); ("int", 0); ("MPI_Comm", 0); ("int", 1); ("MPI_Status", 1)] (* mpi.h 399 *);
  mkDecl "mpi.h" (C "MPI_Pack_size") ("int", 0) [("int", 0); ("MPI_Datatype", 0); ("MPI_Comm", 0); ("MPI_Aint", 1)] (* mpi.h 402 *);
  mkDecl "mpi.h" (C "MPI_Errhandler_set") ("int", 0) [("MPI_Comm", 0); ("MPI_Errhandler", 0)] (* mpi.h 405 *);
  mkDecl "mpi.h" (C "MPI_Get_count") ("int", 0) [("MPI_Status", 1); ("MPI_Datatype", 0); ("int", 1)] (* mpi.h 408 *);
  mkDecl "mpi.h" (C "MPI_Get_elements") ("int", 0) [("MPI_Status", 1); ("MPI_Datatype", 0); ("int", 1)] (* mpi.h 409 *);
  mkDecl "mpi.h" (C "MPI_Type_contiguous") ("int", 0) [("int", 0); ("MPI_Datatype", 0); ("MPI_Datatype", 1)] (* mpi.h 410 *);
  mkDecl "mpi.h" (C "MPI_Type_vector") ("int", 0) [("int", 0); ("int", 0); ("int", 0); ("MPI_Datatype", 0); ("MPI_Datatype", 1)] (* mpi.h 412 *);
  mkDecl "mpi.h" (C "MPI_Type_hvector") ("int", 0) [("int", 0); ("int", 0); ("MPI_Aint", 0); ("MPI_Datatype", 0); ("MPI_Datatype", 1)] (* mpi.h 415 *);
  mkDecl "mpi.h" (C "MPI_Type_create_hvector") ("int", 0) [("int", 0); ("int", 0); ("MPI_Aint", 0); ("MPI_Datatype", 0); ("MPI_Datatype", 1)] (* mpi.h 418 *);
  mkDecl "mpi.h" (C "MPI_Type_indexed") ("int", 0) [("int", 0); ("int", 1); ("int", 1); ("MPI_Datatype", 0); ("MPI_Datatype", 1)] (* mpi.h 421 *);
  mkDecl "mpi.h" (C "MPI_Type_create_indexed_block") ("int", 0) [("int", 0); ("int", 0); ("int", 1); ("MPI_Datatype", 0); ("MPI_Datatype", 1)] (* mpi.h 424 *);
  mkDecl "mpi.h" (C "MPI_Type_hindexed") ("int", 0) [("int", 0); ("int", 1); ("MPI_Aint", 1); ("MPI_Datatype", 0); ("MPI_Datatype", 1)] (* mpi.h 426 *);
  mkDecl "mpi.h" (C "MPI_Type_size") ("int", 0) [("MPI_Datatype", 0); ("int", 1)] (* mpi.h 428 *);
  mkDecl "mpi.h" (C "MPI_Type_struct") ("int", 0) [("int", 0); ("int", 1); ("MPI_Aint", 1); ("MPI_Datatype", 1); ("MPI_Datatype", 1)] (* mpi.h 429 *);
  mkDecl "mpi.h" (C "MPI_Type_dup") ("int", 0) [("MPI_Datatype", 0); ("MPI_Datatype", 1)] (* mpi.h 431 *);
  mkDecl "mpi.h" (C "MPI_Type_extent") ("int", 0) [("MPI_Datatype", 0); ("MPI_Aint", 1)] (* mpi.h 433 *);
  mkDecl "mpi.h" (C "MPI_Type_commit") ("int", 0) [("MPI_Datatype", 1)] (* mpi.h 434 *);
  mkDecl "mpi.h" (C "MPI_Type_free") ("int", 0) [("MPI_Datatype", 1)] (* mpi.h 435 *);
  mkDecl "mpi.h" (C "MPI_Type_lb") ("int", 0) [("MPI_Datatype", 0); ("MPI_Aint", 1)] (* mpi.h 436 *);
  mkDecl "mpi.h" (C "MPI_Type_ub") ("int", 0) [("MPI_Datatype", 0); ("MPI_Aint", 1)] (* mpi.h 437 *);
  mkDecl "mpi.h" (C "MPI_Wtime") ("double", 0) [] (* mpi.h 439 *);
  mkDecl "mpiP.h" (C "copy_data2") ("int", 0) [("void", 1); ("int", 0); ("MPI_Datatype", 0); ("void", 1); ("int", 0); ("MPI_Datatype", 0)] (* mpiP.h 109 *);
  mkDecl "mpiP.h" (C "mpi_malloc") ("void", 1) [("int", 0)] (* mpiP.h 112 *);
  mkDecl "mpiP.h" (C "mpi_free") ("void", 0) [("void", 1)] (* mpiP.h 113 *);
  mkDecl "mpiP.h" (C "mpi_comm_new") ("MPI_Comm", 0) [] (* mpiP.h 115 *);
  mkDecl "mpiP.h" (C "mpi_destroy_handles") ("void", 0) [] (* mpiP.h 117 *);
  mkDecl "mpiP.h" (C "mpi_alloc_handle") ("void", 0) [("int", 1); ("void", 2)] (* mpiP.h 118 *);
  mkDecl "mpiP.h" (C "mpi_handle_to_ptr") ("void", 1) [("int", 0)] (* mpiP.h 119 *);
  mkDecl "mpiP.h" (C "mpi_free_handle") ("void", 0) [("int", 0)] (* mpiP.h 120 *);
  mkDecl "mpiP.h" (F "mpi_get_fort_pointers" "MPI_GET_FORT_POINTERS") ("void", 0) [] (* mpiP.h 122 *);
  mkDecl "mpiP.h" (C "mpi_c_status") ("MPI_Status", 1) [("int", 1)] (* mpiP.h 124 *);
  mkDecl "mpiP.h" (C "mpi_c_statuses") ("MPI_Status", 1) [("int", 1)] (* mpiP.h 125 *);
  mkDecl "mpiP.h" (C "mpi_c_in_place") ("void", 1) [("void", 1)] (* mpiP.h 126 *);
  mkDecl "type.h" (C "Simpletype_length") ("int", 0) [("Simpletype", 0)] (* type.h 83 *);
  mkDecl "type.h" (C "Type_extent") ("int", 0) [("Datatype", 0); ("MPI_Aint", 1)] (* type.h 84 *);
  mkDecl "type.h" (C "print_typemap") ("int", 0) [("MPI_Datatype", 0)] (* type.h 87 *);
  mkDecl "type.h" (C "mpi_handle_to_datatype") ("Datatype", 1) [("int", 0)] (* type.h 119 *);
  mkDecl "type.h" (C "Unpack") ("int", 0) [("void", 1); ("int", 0); ("int", 1); ("void", 1); ("int", 0); ("Datatype", 0); ("Comm", 1)] (* type.h 121 *);
  mkDecl "type.h" (C "Pack") ("int", 0) [("void", 1); ("int", 0); ("Datatype", 0); ("void", 1); ("int", 0); ("int", 1); ("Comm", 1)] (* type.h 123 *);
  mkDecl "list.h" (C "AP_listitem_verify") ("int", 0) [] (* list.h 19 *);
  mkDecl "list.h" (C "AP_listitem_prev") ("pListitem", 0) [("pListitem", 0)] (* list.h 20 *);
  mkDecl "list.h" (C "AP_listitem_next") ("pListitem", 0) [("pListitem", 0)] (* list.h 21 *);
  mkDecl "list.h" (C "AP_listitem_data") ("void", 1) [("pListitem", 0)] (* list.h 22 *);
  mkDecl "list.h" (C "AP_list_new") ("pList", 0) [] (* list.h 23 *);
  mkDecl "list.h" (C "AP_list_free") ("void", 0) [("pList", 0)] (* list.h 24 *);
  mkDecl "list.h" (C "AP_list_size") ("int", 0) [("pList", 0)] (* list.h 25 *);
  mkDecl "list.h" (C "AP_list_prepend") ("pListitem", 0) [("pList", 0); ("void", 1)] (* list.h 26 *);
  mkDecl "list.h" (C "AP_list_append") ("pListitem", 0) [("pList", 0); ("void", 1)] (* list.h 27 *);
  mkDecl "list.h" (C "AP_list_delete") ("int", 0) [("pList", 0); ("void", 1)] (* list.h 28 *);
  mkDecl "list.h" (C "AP_list_delete_item") ("void", 0) [("pList", 0); ("pListitem", 0)] (* list.h 29 *);
  mkDecl "list.h" (C "AP_list_head_item") ("pListitem", 0) [("pList", 0)] (* list.h 30 *);
  mkDecl "list.h" (C "AP_list_head") ("int", 0) [("pList", 0); ("void", 2)] (* list.h 31 *);
  mkDecl "list.h" (C "AP_list_tail") ("int", 0) [("pList", 0); ("void", 2)] (* list.h 32 *);
  mkDecl "list.h" (C "AP_list_print") ("void", 0) [("char", 1); ("pList", 0)] (* list.h 33 *);
  mkDecl "list.h" (C "AP_list_revprint") ("void", 0) [("char", 1); ("pList", 0)] (* list.h 34 *);
  mkDecl "list.h" (C "AP_list_search") ("pListitem", 0) [("pList", 0); ("void", 1)] (* list.h 35 *);
  mkDecl "list.h" (C "AP_list_next") ("int", 0) [("pList", 0); ("void", 2); ("void", 2)] (* list.h 36 *);
  mkDecl "list.h" (C "AP_list_braindead_next") ("void", 1) [("pList", 0); ("void", 2)] (* list.h 37 *);
  mkDecl "list.h" (C "AP_list_duplicate") ("pList", 0) [("pList", 0)] (* list.h 38 *);
  mkDecl "list.h" (C "AP_list_search_func") ("pListitem", 0) [("pList", 0); ("int(void*,void*)", 1); ("void", 1)] (* list.h 41 *);
  mkDecl "list.h" (C "AP_list_apply") ("int", 0) [("pList", 0); ("int(void*,void*)", 1); ("void", 1)] (* list.h 43 *)
].
(** The typedefs of mpi.h 6, 7, 14, 66, 69, 150, 200, 211 and 243. *)
Definition typedefs : list (string * string) := [
  ("MPI_Comm", "int"); ("MPI_Request", "int"); ("MPI_Group", "int"); ("MPI_Aint", "unsigned long"); ("MPI_Datatype", "int"); ("MPI_Fint", "int"); ("MPI_Errhandler", "int"); ("MPI_Op", "int"); ("MPI_Info", "int")
].

(** What tests/ctest.c calls besides its own routines (ctest.c 20-1066).  *)
Definition ctest_calls : list nm := [
  C "printf"; C "MPI_Type_contiguous"; C "MPI_Type_commit"; C "MPI_Isend"; C "MPI_Irecv"; C "MPI_Type_vector";
  C "MPI_Type_hvector"; C "MPI_Type_indexed"; C "MPI_Type_create_indexed_block"; C "MPI_Send"; C "MPI_Wait"; C "MPI_Type_hindexed";
  C "MPI_Type_struct"; C "MPI_Gather"; C "MPI_Pack"; C "MPI_Unpack"; C "MPI_Pack_size"; C "MPI_Bcast";
  C "MPI_Gatherv"; C "MPI_Allgather"; C "MPI_Allgatherv"; C "MPI_Scatter"; C "MPI_Scatterv"; C "MPI_Reduce";
  C "MPI_Allreduce"; C "MPI_Alltoall"; C "MPI_Alltoallv"; C "MPI_Reduce_scatter"; C "MPI_Scan"; C "MPI_Init";
  C "MPI_Get_library_version"; C "MPI_Finalize"].
(** The same with TEST_INTERNAL (ctest.c 9-1066).  *)
Definition ctest_internal_calls : list nm := [
  C "printf"; C "MPI_Type_contiguous"; C "MPI_Type_commit"; C "print_typemap"; C "copy_data"; C "MPI_Type_vector";
  C "MPI_Type_hvector"; C "MPI_Type_indexed"; C "MPI_Type_create_indexed_block"; C "MPI_Type_hindexed"; C "MPI_Type_struct"; C "copy_data2";
  C "MPI_Pack"; C "MPI_Unpack"; C "MPI_Pack_size"; C "MPI_Bcast"; C "MPI_Gather"; C "MPI_Gatherv";
  C "MPI_Allgather"; C "MPI_Allgatherv"; C "MPI_Scatter"; C "MPI_Scatterv"; C "MPI_Reduce"; C "MPI_Allreduce";
  C "MPI_Alltoall"; C "MPI_Alltoallv"; C "MPI_Reduce_scatter"; C "MPI_Scan"; C "MPI_Init"; C "MPI_Get_library_version";
  C "MPI_Finalize"].
(** What tests/ctest_old.c calls (ctest_old.c 1-181).  *)
Definition ctest_old_calls : list nm := [
  C "printf"; C "MPI_Wtime"; C "MPI_Initialized"; C "MPI_Init"; C "MPI_Get_processor_name"; C "MPI_Comm_dup";
  C "MPI_Comm_split"; C "MPI_Comm_group"; C "MPI_Comm_create"; C "MPI_Irecv"; C "MPI_Isend"; C "MPI_Waitall";
  C "MPI_Pack"; C "MPI_Unpack"; C "MPI_Finalize"; C "sleep"].
(** The calls of fort.F90 1-68, with the number of arguments given: a Fortran compiler does not know how many there should be. *)
Definition fort_calls : list (nm * nat) := [
  (F "mpi_init" "MPI_INIT", 1); (* fort.F90 6 *)
  (F "mpi_init_fort" "MPI_INIT_FORT", 36); (* fort.F90 30 *)
  (F "mpi_save_fort_pointers" "MPI_SAVE_FORT_POINTERS", 3) (* fort.F90 66 *)
].
(** What tests/ftest.F90 5-772 calls besides its own routines, with the numbers of arguments; the line of the first such call is given. *)
Definition ftest_calls : list (nm * nat) := [
  (F "mpi_init" "MPI_INIT", 1); (* ftest.F90 18 *)
  (F "mpi_get_library_version" "MPI_GET_LIBRARY_VERSION", 3); (* ftest.F90 20 *)
  (F "mpi_finalize" "MPI_FINALIZE", 1); (* ftest.F90 37 *)
  (F "mpi_type_contiguous" "MPI_TYPE_CONTIGUOUS", 4); (* ftest.F90 65 *)
  (F "mpi_type_commit" "MPI_TYPE_COMMIT", 2); (* ftest.F90 66 *)
  (F "mpi_isend" "MPI_ISEND", 8); (* ftest.F90 71 *)
  (F "mpi_irecv" "MPI_IRECV", 8); (* ftest.F90 72 *)
  (F "mpi_type_vector" "MPI_TYPE_VECTOR", 6); (* ftest.F90 107 *)
  (F "mpi_type_extent" "MPI_TYPE_EXTENT", 3); (* ftest.F90 149 *)
  (F "mpi_type_hvector" "MPI_TYPE_HVECTOR", 6); (* ftest.F90 150 *)
  (F "mpi_type_indexed" "MPI_TYPE_INDEXED", 6); (* ftest.F90 193 *)
  (F "mpi_type_create_indexed_block" "MPI_TYPE_CREATE_INDEXED_BLOCK", 6); (* ftest.F90 234 *)
  (F "mpi_send" "MPI_SEND", 8); (* ftest.F90 298 *)
  (F "mpi_address" "MPI_ADDRESS", 3); (* ftest.F90 340 *)
  (F "mpi_type_hindexed" "MPI_TYPE_HINDEXED", 6); (* ftest.F90 352 *)
  (F "mpi_type_free" "MPI_TYPE_FREE", 2); (* ftest.F90 427 *)
  (F "mpi_pack" "MPI_PACK", 8); (* ftest.F90 460 *)
  (F "mpi_unpack" "MPI_UNPACK", 8); (* ftest.F90 474 *)
  (F "mpi_bcast" "MPI_BCAST", 6); (* ftest.F90 602 *)
  (F "mpi_gather" "MPI_GATHER", 9); (* ftest.F90 604 *)
  (F "mpi_gatherv" "MPI_GATHERV", 10); (* ftest.F90 617 *)
  (F "mpi_allgather" "MPI_ALLGATHER", 8); (* ftest.F90 629 *)
  (F "mpi_allgatherv" "MPI_ALLGATHERV", 9); (* ftest.F90 638 *)
  (F "mpi_scatter" "MPI_SCATTER", 9); (* ftest.F90 650 *)
  (F "mpi_scatterv" "MPI_SCATTERV", 10); (* ftest.F90 662 *)
  (F "mpi_reduce" "MPI_REDUCE", 8); (* ftest.F90 674 *)
  (F "mpi_allreduce" "MPI_ALLREDUCE", 7); (* ftest.F90 686 *)
  (F "mpi_alltoall" "MPI_ALLTOALL", 8); (* ftest.F90 698 *)
  (F "mpi_alltoallv" "MPI_ALLTOALLV", 10); (* ftest.F90 710 *)
  (F "mpi_reduce_scatter" "MPI_REDUCE_SCATTER", 7); (* ftest.F90 722 *)
  (F "mpi_scan" "MPI_SCAN", 7); (* ftest.F90 734 *)
  (F "mpi_get_version" "MPI_GET_VERSION", 3) (* ftest.F90 758 *)
].
(** The same with TEST_INTERNAL (ftest.F90 5-772). *)
Definition ftest_with_internal_calls : list (nm * nat) := [
  (F "mpi_init" "MPI_INIT", 1); (* ftest.F90 18 *)
  (F "mpi_get_library_version" "MPI_GET_LIBRARY_VERSION", 3); (* ftest.F90 20 *)
  (F "mpi_finalize" "MPI_FINALIZE", 1); (* ftest.F90 37 *)
  (F "mpi_type_contiguous" "MPI_TYPE_CONTIGUOUS", 4); (* ftest.F90 65 *)
  (F "mpi_type_commit" "MPI_TYPE_COMMIT", 2); (* ftest.F90 66 *)
  (F "copy_data2" "COPY_DATA2", 7); (* ftest.F90 69 *)
  (F "mpi_type_vector" "MPI_TYPE_VECTOR", 6); (* ftest.F90 107 *)
  (F "mpi_type_extent" "MPI_TYPE_EXTENT", 3); (* ftest.F90 149 *)
  (F "mpi_type_hvector" "MPI_TYPE_HVECTOR", 6); (* ftest.F90 150 *)
  (F "mpi_type_indexed" "MPI_TYPE_INDEXED", 6); (* ftest.F90 193 *)
  (F "mpi_type_create_indexed_block" "MPI_TYPE_CREATE_INDEXED_BLOCK", 6); (* ftest.F90 234 *)
  (F "mpi_address" "MPI_ADDRESS", 3); (* ftest.F90 340 *)
  (F "mpi_type_hindexed" "MPI_TYPE_HINDEXED", 6); (* ftest.F90 352 *)
  (F "mpi_type_free" "MPI_TYPE_FREE", 2); (* ftest.F90 427 *)
  (F "mpi_pack" "MPI_PACK", 8); (* ftest.F90 460 *)
  (F "mpi_unpack" "MPI_UNPACK", 8); (* ftest.F90 474 *)
  (F "mpi_bcast" "MPI_BCAST", 6); (* ftest.F90 602 *)
  (F "mpi_gather" "MPI_GATHER", 9); (* ftest.F90 604 *)
  (F "mpi_gatherv" "MPI_GATHERV", 10); (* ftest.F90 617 *)
  (F "mpi_allgather" "MPI_ALLGATHER", 8); (* ftest.F90 629 *)
  (F "mpi_allgatherv" "MPI_ALLGATHERV", 9); (* ftest.F90 638 *)
  (F "mpi_scatter" "MPI_SCATTER", 9); (* ftest.F90 650 *)
  (F "mpi_scatterv" "MPI_SCATTERV", 10); (* ftest.F90 662 *)
  (F "mpi_reduce" "MPI_REDUCE", 8); (* ftest.F90 674 *)
  (F "mpi_allreduce" "MPI_ALLREDUCE", 7); (* ftest.F90 686 *)
  (F "mpi_alltoall" "MPI_ALLTOALL", 8); (* ftest.F90 698 *)
  (F "mpi_alltoallv" "MPI_ALLTOALLV", 10); (* ftest.F90 710 *)
  (F "mpi_reduce_scatter" "MPI_REDUCE_SCATTER", 7); (* ftest.F90 722 *)
  (F "mpi_scan" "MPI_SCAN", 7); (* ftest.F90 734 *)
  (F "mpi_get_version" "MPI_GET_VERSION", 3) (* ftest.F90 758 *)
].
(** The same for tests/ftest_old.F90 1-165; sleep, a routine of the Fortran compiler, is left out. *)
Definition ftest_old_calls : list (nm * nat) := [
  (F "mpi_wtime" "MPI_WTIME", 0); (* ftest_old.F90 23 *)
  (F "mpi_initialized" "MPI_INITIALIZED", 2); (* ftest_old.F90 25 *)
  (F "mpi_init" "MPI_INIT", 1); (* ftest_old.F90 28 *)
  (F "mpi_get_processor_name" "MPI_GET_PROCESSOR_NAME", 3); (* ftest_old.F90 30 *)
  (F "mpi_comm_dup" "MPI_COMM_DUP", 3); (* ftest_old.F90 34 *)
  (F "mpi_irecv" "MPI_IRECV", 8); (* ftest_old.F90 46 *)
  (F "mpi_isend" "MPI_ISEND", 8); (* ftest_old.F90 66 *)
  (F "mpi_waitall" "MPI_WAITALL", 4); (* ftest_old.F90 97 *)
  (F "mpi_pack" "MPI_PACK", 8); (* ftest_old.F90 125 *)
  (F "mpi_unpack" "MPI_UNPACK", 7); (* ftest_old.F90 136 *)
  (F "mpi_finalize" "MPI_FINALIZE", 1) (* ftest_old.F90 151 *)
].
(** The same for tests/ftest_internal.F90 1-328. *)
Definition ftest_internal_calls : list (nm * nat) := [
  (F "mpi_type_contiguous" "MPI_TYPE_CONTIGUOUS", 4); (* ftest_internal.F90 33 *)
  (F "mpi_type_commit" "MPI_TYPE_COMMIT", 2); (* ftest_internal.F90 35 *)
  (F "print_typemap" "PRINT_TYPEMAP", 2); (* ftest_internal.F90 37 *)
  (F "copy_data2" "COPY_DATA2", 7); (* ftest_internal.F90 38 *)
  (F "mpi_type_vector" "MPI_TYPE_VECTOR", 6); (* ftest_internal.F90 68 *)
  (F "mpi_type_extent" "MPI_TYPE_EXTENT", 3); (* ftest_internal.F90 105 *)
  (F "mpi_type_hvector" "MPI_TYPE_HVECTOR", 6); (* ftest_internal.F90 106 *)
  (F "mpi_type_indexed" "MPI_TYPE_INDEXED", 6); (* ftest_internal.F90 143 *)
  (F "mpi_type_indexed_block" "MPI_TYPE_INDEXED_BLOCK", 6); (* ftest_internal.F90 177 *)
  (F "mpi_type_hindexed" "MPI_TYPE_HINDEXED", 6); (* ftest_internal.F90 222 *)
  (F "mpi_pack" "MPI_PACK", 8); (* ftest_internal.F90 266 *)
  (F "mpi_unpack" "MPI_UNPACK", 8) (* ftest_internal.F90 276 *)
].
