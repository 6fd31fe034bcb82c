(** The C files and headers as the preprocessor and the compiler read them: what is included, which macros, types, variables and members are defined where and
    where they are used (C116), and the names that the library brings into a program (C117).

    Routines are in LinkModel and BuildModel; local variables and parameters are left out. *)
From Verif Require Import Base LinkModel BuildModel.
#[local] Open Scope string_scope.
#[local] Open Scope Z_scope.
#[local] Open Scope list_scope.

(** What a line does: includes a file, defines a macro with the names in its body, defines a type, a variable or a member, uses such a name, or is #error (e.g.
    mpiP.h 14, mpiP.h 76, mpiP.h 89, mpiP.h 84, mpiP.h 65).  Members are written with a dot; that they belong to one structure or another is left out, and
    structures are known by the names of their types. *)
Inductive item := Incl (h : string) | Macro (n : string) (body : list string) | Def (n : string) | Use (n : string) | Stop.
(** A line, the macros that have to be defined (true) or not (false) for it to be read, and what it does (e.g. mpiP.h 29-30).  The test of the file's own guard is
    left to [guarded]. *)
Record row := mkRow { r_line : Z; r_when : list (bool * string); r_item : item }.

(** cart.c 1-133; of the uses of a name, the first. *)
Definition t_cart_c : list row := [
  mkRow 1 [] (Incl "mpiP.h"); mkRow 10 [] (Use "FC_FUNC"); mkRow 16 [] (Use "MPI_SUCCESS"); mkRow 20 [] (Use "MPI_Comm")
].
(** collective.c 1-522; of the uses of a name, the first. *)
Definition t_collective_c : list row := [
  mkRow 2 [] (Incl "mpiP.h"); mkRow 11 [] (Use "FC_FUNC"); mkRow 14 [] (Use "MPI_SUCCESS"); mkRow 18 [] (Use "MPI_Comm"); mkRow 36 [] (Use "MPI_Datatype");
  mkRow 39 [] (Use "MPI_ROOT"); mkRow 44 [] (Use "stderr"); mkRow 72 [] (Use "MPI_IN_PLACE"); mkRow 112 [] (Use "MPI_Aint"); mkRow 311 [] (Use "MPI_Op");
  mkRow 510 [] (Use "MPI_Fint")
].
(** comm.c 1-255; of the uses of a name, the first. *)
Definition t_comm_c : list row := [
  mkRow 2 [] (Incl "mpiP.h"); mkRow 13 [] (Use "MPI_Comm"); mkRow 16 [] (Use "Comm"); mkRow 21 [] (Use ".sendlist"); mkRow 22 [] (Use ".recvlist");
  mkRow 24 [] (Use ".num"); mkRow 33 [] (Use "FC_FUNC"); mkRow 36 [] (Use "MPI_SUCCESS"); mkRow 52 [] (Use "pList"); mkRow 63 [] (Use "stderr");
  mkRow 75 [] (Use "MPI_COMM_NULL"); mkRow 137 [(true, "INFO")] (Use "stdout"); mkRow 157 [] (Use "MPI_Group"); mkRow 159 [] (Use "MPI_GROUP_NULL");
  mkRow 159 [] (Use "MPI_GROUP_EMPTY"); mkRow 184 [] (Use "MPI_UNDEFINED"); mkRow 210 [] (Use "MPI_GROUP_ONE"); mkRow 236 [] (Use "MPI_COMM_WORLD");
  mkRow 245 [] (Use "MPI_Fint")
].
(** copy.c 1-92; of the uses of a name, the first. *)
Definition t_copy_c : list row := [
  mkRow 8 [] (Incl "mpiP.h"); mkRow 9 [] (Incl "type.h"); mkRow 10 [] (Incl "string.h"); mkRow 11 [] (Incl "stdio.h"); mkRow 12 [] (Incl "stdlib.h");
  mkRow 13 [] (Incl "limits.h"); mkRow 17 [(true, "HAVE_CONFIG_H")] (Incl "config.h"); mkRow 26 [] (Use "Datatype"); mkRow 30 [] (Use "MPI_Datatype");
  mkRow 47 [] (Use "MPI_Aint"); mkRow 52 [] (Use ".committed"); mkRow 54 [] (Use "stderr"); mkRow 61 [] (Use ".count");
  mkRow 74 [(true, "TYPE_CHECKING")] (Use ".pairs"); mkRow 74 [(true, "TYPE_CHECKING")] (Use ".type"); mkRow 82 [] (Use ".pairs"); mkRow 82 [] (Use ".disp");
  mkRow 85 [] (Use ".type"); mkRow 87 [] (Use "MPI_SUCCESS")
].
(** error.c 1-13; of the uses of a name, the first. *)
Definition t_error_c : list row := [
  mkRow 2 [] (Incl "mpiP.h"); mkRow 10 [] (Use "MPI_Comm"); mkRow 10 [] (Use "MPI_Errhandler"); mkRow 12 [] (Use "MPI_SUCCESS")
].
(** getcount.c 1-44; of the uses of a name, the first. *)
Definition t_getcount_c : list row := [
  mkRow 7 [] (Incl "type.h"); mkRow 8 [] (Incl "mpiP.h"); mkRow 11 [] (Use "FC_FUNC"); mkRow 14 [] (Use "MPI_Status"); mkRow 15 [] (Use "MPI_SUCCESS");
  mkRow 19 [] (Use "MPI_Datatype"); mkRow 21 [] (Use ".get_count"); mkRow 39 [] (Use "Datatype"); mkRow 40 [] (Use ".count")
].
(** group.c 1-271; of the uses of a name, the first. *)
Definition t_group_c : list row := [
  mkRow 2 [] (Incl "mpiP.h"); mkRow 8 [] (Use "FC_FUNC"); mkRow 12 [] (Use "MPI_SUCCESS"); mkRow 16 [] (Use "MPI_Group"); mkRow 19 [] (Use "MPI_GROUP_NULL");
  mkRow 21 [] (Use "stderr"); mkRow 25 [] (Use "MPI_GROUP_EMPTY"); mkRow 29 [] (Use "MPI_GROUP_ONE"); mkRow 246 [] (Use "MPI_UNDEFINED"); mkRow 258 [] (Use "MPI_Fint")
].
(** handles.c 1-309; of the uses of a name, the first. *)
Definition t_handles_c : list row := [
  mkRow 8 [] (Incl "mpiP.h"); mkRow 9 [] (Incl "type.h"); mkRow 28 [] (Def ".handle"); mkRow 29 [] (Def ".next"); mkRow 33 [] (Def ".anything");
  mkRow 34 [] (Use "Comm"); mkRow 34 [] (Def ".comm"); mkRow 35 [] (Use "Req"); mkRow 35 [] (Def ".req"); mkRow 36 [] (Use "Datatype"); mkRow 36 [] (Def ".type");
  mkRow 38 [] (Def ".data"); mkRow 41 [] (Def "Handleitem"); mkRow 49 [] (Macro "BLOCK_ITEMS" []); mkRow 50 [] (Macro "HANDLE_TO_BLOCK" []);
  mkRow 51 [] (Macro "HANDLE_TO_INDEX" []); mkRow 52 [] (Macro "HANDLE" []); mkRow 66 [] (Macro "MAX_BLOCKS" []); mkRow 68 [] (Use "Handleitem");
  mkRow 68 [] (Use "BLOCK_ITEMS"); mkRow 68 [] (Def "block0"); mkRow 69 [] (Use "MAX_BLOCKS"); mkRow 69 [] (Def "blocks"); mkRow 70 [] (Def "nblocks");
  mkRow 73 [] (Def "need_to_init"); mkRow 74 [] (Def "nextfree"); mkRow 87 [] (Use "stderr"); mkRow 116 [] (Use ".handle"); mkRow 116 [] (Use "HANDLE");
  mkRow 117 [] (Use ".next"); mkRow 139 [] (Use "block0"); mkRow 141 [] (Use "nextfree"); mkRow 142 [] (Use "NULL"); mkRow 149 [] (Use "blocks");
  mkRow 150 [] (Use "nblocks"); mkRow 156 [] (Use "need_to_init"); mkRow 192 [] (Use ".data"); mkRow 220 [(true, "HANDLE_INFO")] (Use "stdout");
  mkRow 258 [] (Use "HANDLE_TO_BLOCK"); mkRow 259 [] (Use "HANDLE_TO_INDEX")
].
(** ic_merge.c 1-15; of the uses of a name, the first. *)
Definition t_ic_merge_c : list row := [
  mkRow 2 [] (Incl "mpiP.h"); mkRow 11 [] (Use "MPI_Comm"); mkRow 14 [] (Use "MPI_SUCCESS")
].
(** info.c 1-56; of the uses of a name, the first. *)
Definition t_info_c : list row := [
  mkRow 2 [] (Incl "mpiP.h"); mkRow 9 [] (Use "FC_FUNC"); mkRow 12 [] (Use "MPI_SUCCESS"); mkRow 17 [] (Use "MPI_Info")
].
(** list.c 1-705; of the uses of a name, the first. *)
Definition t_list_c : list row := [
  mkRow 8 [] (Incl "stdlib.h"); mkRow 9 [] (Incl "stdio.h"); mkRow 10 [] (Incl "listops.h"); mkRow 11 [] (Incl "listP.h"); mkRow 21 [] (Def "itemcount");
  mkRow 22 [] (Def "headcount"); mkRow 32 [] (Use "pListitem"); mkRow 36 [] (Use "itemcount"); mkRow 37 [] (Use "Listitem"); mkRow 76 [] (Use "stderr");
  mkRow 79 [] (Use "headcount"); mkRow 91 [] (Use ".prev"); mkRow 98 [] (Use ".next"); mkRow 106 [] (Use ".data"); mkRow 123 [] (Use "pList"); mkRow 127 [] (Use "List");
  mkRow 135 [] (Use ".head"); mkRow 135 [] (Use "NULL"); mkRow 136 [] (Use ".tail"); mkRow 137 [] (Use ".count"); mkRow 217 [(true, "CHECKS")] (Use ".list")
].
(** mpi.c 1-389; of the uses of a name, the first. *)
Definition t_mpi_c : list row := [
  mkRow 1 [] (Incl "mpiP.h"); mkRow 2 [] (Incl "mpi.h"); mkRow 3 [] (Incl "type.h"); mkRow 7 [] (Def "initialized"); mkRow 12 [] (Def "f_MPI_STATUS_IGNORE");
  mkRow 13 [] (Def "f_MPI_STATUSES_IGNORE"); mkRow 14 [] (Def "f_MPI_IN_PLACE"); mkRow 16 [] (Def "mpi_version_string"); mkRow 29 [] (Use "FC_FUNC");
  mkRow 54 [] (Use "NULL"); mkRow 74 [] (Macro "verify_eq" ["stderr"]); mkRow 81 [] (Macro "verify_eq_warn" ["stderr"]);
  mkRow 97 [] (Macro "verify_size" ["Datatype"; ".pairs"; ".type"; "stderr"]); mkRow 112 [] (Macro "verify_field" ["MPI_Status"; "stderr"]); mkRow 122 [] (Use "verify_eq");
  mkRow 122 [] (Use "MPI_COMM_WORLD"); mkRow 123 [] (Use "MPI_ANY_SOURCE"); mkRow 124 [] (Use "MPI_ANY_TAG"); mkRow 125 [] (Use "MPI_PROC_NULL");
  mkRow 126 [] (Use "MPI_ROOT"); mkRow 127 [] (Use "MPI_COMM_NULL"); mkRow 128 [] (Use "MPI_REQUEST_NULL"); mkRow 129 [] (Use "MPI_GROUP_NULL");
  mkRow 130 [] (Use "MPI_GROUP_EMPTY"); mkRow 131 [] (Use "MPI_UNDEFINED"); mkRow 132 [] (Use "MPI_MAX_ERROR_STRING"); mkRow 133 [] (Use "MPI_MAX_PROCESSOR_NAME");
  mkRow 135 [] (Use "MPI_STATUS_SIZE"); mkRow 136 [] (Use "verify_field"); mkRow 136 [] (Use ".MPI_SOURCE"); mkRow 137 [] (Use ".MPI_TAG"); mkRow 138 [] (Use ".MPI_ERROR"); mkRow 140 [] (Use "MPI_INTEGER"); mkRow 141 [] (Use "verify_size");
  mkRow 143 [] (Use "MPI_LOGICAL"); mkRow 145 [] (Use "verify_eq_warn"); mkRow 145 [] (Use "MPI_REAL"); mkRow 148 [] (Use "MPI_DOUBLE_PRECISION");
  mkRow 151 [] (Use "MPI_COMPLEX"); mkRow 166 [] (Use "MPI_Comm"); mkRow 168 [] (Use "MPI_Aint"); mkRow 170 [] (Use "stderr"); mkRow 187 [] (Use "initialized");
  mkRow 188 [] (Use "MPI_SUCCESS"); mkRow 312 [] (Use "mpi_version_string"); mkRow 312 [] (Use "MPI_MAX_LIBRARY_VERSION_STRING");
  mkRow 358 [] (Use "f_MPI_STATUS_IGNORE"); mkRow 359 [] (Use "f_MPI_STATUSES_IGNORE"); mkRow 360 [] (Use "f_MPI_IN_PLACE"); mkRow 365 [] (Use "MPI_Status");
  mkRow 368 [] (Use "MPI_STATUS_IGNORE"); mkRow 377 [] (Use "MPI_STATUSES_IGNORE"); mkRow 386 [] (Use "MPI_IN_PLACE")
].
(** op.c 1-30; of the uses of a name, the first. *)
Definition t_op_c : list row := [
  mkRow 1 [] (Incl "mpi.h"); mkRow 2 [] (Incl "mpiP.h"); mkRow 8 [] (Use "FC_FUNC"); mkRow 8 [] (Use "MPI_User_function"); mkRow 11 [] (Use "MPI_SUCCESS");
  mkRow 14 [] (Use "MPI_Op")
].
(** pack.c 1-151; of the uses of a name, the first. *)
Definition t_pack_c : list row := [
  mkRow 1 [] (Incl "stdio.h"); mkRow 2 [] (Incl "stdlib.h"); mkRow 3 [] (Incl "string.h"); mkRow 4 [] (Incl "mpiP.h"); mkRow 5 [] (Incl "type.h");
  mkRow 12 [] (Use "FC_FUNC"); mkRow 18 [] (Use "MPI_SUCCESS"); mkRow 23 [] (Use "MPI_Datatype"); mkRow 24 [] (Use "MPI_Comm"); mkRow 28 [] (Use "Datatype");
  mkRow 29 [] (Use "Comm"); mkRow 42 [] (Use "MPI_Aint"); mkRow 47 [] (Use ".count"); mkRow 49 [] (Use ".pairs"); mkRow 49 [] (Use ".type"); mkRow 54 [] (Use ".disp")
].
(** probe.c 1-90; of the uses of a name, the first. *)
Definition t_probe_c : list row := [
  mkRow 2 [] (Incl "mpiP.h"); mkRow 6 [] (Use "MPI_ANY_TAG"); mkRow 7 [] (Use "Req"); mkRow 7 [] (Use ".tag"); mkRow 10 [] (Use "FC_FUNC");
  mkRow 14 [] (Use "MPI_SUCCESS"); mkRow 21 [] (Use "MPI_Comm"); mkRow 22 [] (Use "MPI_Status"); mkRow 25 [] (Use "pListitem"); mkRow 26 [] (Use "Comm");
  mkRow 32 [(true, "INFO")] (Use "stdout"); mkRow 33 [(true, "INFO")] (Use "stderr"); mkRow 34 [(true, "INFO")] (Use ".num"); mkRow 38 [] (Use "MPI_ANY_SOURCE");
  mkRow 40 [] (Use "stderr"); mkRow 44 [] (Use ".sendlist"); mkRow 46 [] (Use "NULL"); mkRow 52 [] (Use "MPI_STATUS_IGNORE"); mkRow 54 [] (Use ".MPI_SOURCE");
  mkRow 55 [] (Use ".MPI_TAG")
].
(** recv.c 1-166; of the uses of a name, the first. *)
Definition t_recv_c : list row := [
  mkRow 2 [] (Incl "mpiP.h"); mkRow 15 [] (Use "MPI_ANY_TAG"); mkRow 16 [] (Use "Req"); mkRow 16 [] (Use ".tag"); mkRow 27 [] (Use "FC_FUNC");
  mkRow 34 [] (Use "MPI_SUCCESS"); mkRow 40 [] (Use "MPI_Datatype"); mkRow 41 [] (Use "MPI_Comm"); mkRow 41 [] (Use "MPI_Request"); mkRow 44 [] (Use "pListitem");
  mkRow 45 [] (Use "Comm"); mkRow 51 [(true, "INFO")] (Use "stdout"); mkRow 52 [(true, "INFO")] (Use "stderr"); mkRow 53 [(true, "INFO")] (Use ".num");
  mkRow 56 [] (Use "MPI_ANY_SOURCE"); mkRow 56 [] (Use "MPI_PROC_NULL"); mkRow 58 [] (Use "stderr"); mkRow 63 [] (Use ".type"); mkRow 64 [] (Use ".count");
  mkRow 67 [] (Use ".complete"); mkRow 68 [] (Use ".source"); mkRow 75 [] (Use ".sendlist"); mkRow 81 [] (Use ".buf"); mkRow 99 [] (Use ".listitem");
  mkRow 99 [] (Use ".recvlist"); mkRow 124 [] (Use "MPI_Status"); mkRow 137 [] (Use "MPI_STATUS_IGNORE"); mkRow 138 [] (Use ".get_count");
  mkRow 154 [(true, "INFO")] (Use "pList"); mkRow 159 [(true, "INFO")] (Use "NULL")
].
(** req.c 1-310; of the uses of a name, the first. *)
Definition t_req_c : list row := [
  mkRow 1 [] (Incl "mpiP.h"); mkRow 10 [] (Use "FC_FUNC"); mkRow 14 [] (Use "MPI_SUCCESS"); mkRow 19 [] (Use "MPI_Request"); mkRow 19 [] (Use "MPI_Status");
  mkRow 21 [] (Use "Req"); mkRow 23 [] (Use "MPI_REQUEST_NULL"); mkRow 25 [] (Use "MPI_STATUS_IGNORE"); mkRow 27 [] (Use ".MPI_TAG"); mkRow 27 [] (Use "MPI_ANY_TAG");
  mkRow 28 [] (Use ".MPI_SOURCE"); mkRow 28 [] (Use "MPI_ANY_SOURCE"); mkRow 37 [] (Use ".complete"); mkRow 43 [] (Use ".source"); mkRow 44 [] (Use ".tag");
  mkRow 72 [] (Use "stderr"); mkRow 297 [] (Use "MPI_Fint")
].
(** send.c 1-253; of the uses of a name, the first. *)
Definition t_send_c : list row := [
  mkRow 1 [] (Incl "mpiP.h"); mkRow 13 [] (Use "Req"); mkRow 13 [] (Use ".tag"); mkRow 13 [] (Use "MPI_ANY_TAG"); mkRow 24 [] (Use "FC_FUNC");
  mkRow 31 [] (Use "MPI_SUCCESS"); mkRow 36 [] (Use "MPI_Datatype"); mkRow 37 [] (Use "MPI_Comm"); mkRow 37 [] (Use "MPI_Request"); mkRow 39 [] (Use "pListitem");
  mkRow 40 [] (Use "Comm"); mkRow 46 [(true, "INFO")] (Use "stdout"); mkRow 47 [(true, "INFO")] (Use "stderr"); mkRow 48 [(true, "INFO")] (Use ".num");
  mkRow 51 [] (Use "MPI_PROC_NULL"); mkRow 53 [] (Use "stderr"); mkRow 62 [] (Use ".complete"); mkRow 65 [] (Use ".recvlist"); mkRow 70 [] (Use ".buf");
  mkRow 70 [] (Use ".count"); mkRow 70 [] (Use ".type"); mkRow 72 [] (Use ".source"); mkRow 88 [] (Use ".listitem"); mkRow 88 [] (Use ".sendlist");
  mkRow 114 [] (Use "MPI_Status")
].
(** time.c 1-35; of the uses of a name, the first. *)
Definition t_time_c : list row := [
  mkRow 2 [] (Incl "sys/time.h"); mkRow 3 [] (Incl "time.h"); mkRow 6 [] (Incl "mpiP.h"); mkRow 13 [] (Use "FC_FUNC"); mkRow 22 [] (Use "timeval");
  mkRow 26 [] (Use "stderr"); mkRow 31 [] (Use ".tv_sec"); mkRow 31 [] (Use ".tv_usec")
].
(** type.c 1-867; of the uses of a name, the first. *)
Definition t_type_c : list row := [
  mkRow 7 [] (Incl "type.h"); mkRow 8 [] (Incl "mpiP.h"); mkRow 9 [] (Incl "stdlib.h"); mkRow 10 [] (Incl "stdio.h"); mkRow 11 [] (Incl "limits.h");
  mkRow 14 [(true, "HAVE_CONFIG_H")] (Incl "config.h"); mkRow 33 [] (Use "Datatype"); mkRow 36 [] (Use "simpletypes"); mkRow 48 [] (Use "INT_MIN");
  mkRow 53 [] (Use ".count"); mkRow 55 [] (Use ".pairs"); mkRow 55 [] (Use ".type"); mkRow 68 [] (Use "Simpletype"); mkRow 72 [] (Use "SIMPLE_CHAR");
  mkRow 74 [] (Use "SIMPLE_SHORT"); mkRow 76 [] (Use "SIMPLE_INT"); mkRow 78 [] (Use "SIMPLE_LONG"); mkRow 80 [] (Use "SIMPLE_UCHAR"); mkRow 82 [] (Use "SIMPLE_USHORT");
  mkRow 84 [] (Use "SIMPLE_UINT"); mkRow 86 [] (Use "SIMPLE_ULONG"); mkRow 88 [] (Use "SIMPLE_FLOAT"); mkRow 90 [] (Use "SIMPLE_DOUBLE");
  mkRow 92 [] (Use "SIMPLE_LDOUBLE"); mkRow 94 [] (Use "SIMPLE_BYTE"); mkRow 96 [] (Use "SIMPLE_FINTEGER"); mkRow 97 [] (Use "FSIZE_INTEGER");
  mkRow 98 [] (Use "SIMPLE_FREAL"); mkRow 99 [] (Use "FSIZE_REAL"); mkRow 100 [] (Use "SIMPLE_FDPRECISION"); mkRow 101 [] (Use "FSIZE_DPRECISION");
  mkRow 102 [] (Use "SIMPLE_FCOMPLEX"); mkRow 103 [] (Use "FSIZE_COMPLEX"); mkRow 104 [] (Use "SIMPLE_FDCOMPLEX"); mkRow 105 [] (Use "FSIZE_DCOMPLEX");
  mkRow 106 [] (Use "SIMPLE_FLOGICAL"); mkRow 107 [] (Use "FSIZE_LOGICAL"); mkRow 108 [] (Use "SIMPLE_FCHARACTER"); mkRow 109 [] (Use "FSIZE_CHARACTER");
  mkRow 110 [] (Use "SIMPLE_FINTEGER1"); mkRow 112 [] (Use "SIMPLE_FINTEGER2"); mkRow 114 [] (Use "SIMPLE_FINTEGER4"); mkRow 116 [] (Use "SIMPLE_FINTEGER8");
  mkRow 118 [] (Use "SIMPLE_FREAL4"); mkRow 120 [] (Use "SIMPLE_FREAL8"); mkRow 122 [] (Use "SIMPLE_FREAL16"); mkRow 124 [] (Use "SIMPLE_FCOMPLEX8");
  mkRow 126 [] (Use "SIMPLE_FCOMPLEX16"); mkRow 128 [] (Use "SIMPLE_FCOMPLEX32"); mkRow 130 [] (Use "SIMPLE_LONGLONG"); mkRow 132 [] (Use "SIMPLE_ULONGLONG");
  mkRow 134 [] (Use "SIMPLE_OFFSET"); mkRow 135 [] (Use "MPI_Offset"); mkRow 150 [] (Use "INT_MAX"); mkRow 151 [] (Use "typepair"); mkRow 156 [] (Use ".disp");
  mkRow 188 [] (Use "MPI_Aint"); mkRow 191 [] (Use ".o_lb"); mkRow 191 [] (Use ".o_ub"); mkRow 195 [] (Use ".ub"); mkRow 195 [] (Use ".lb");
  mkRow 207 [] (Use "MPI_SUCCESS"); mkRow 210 [] (Use "FC_FUNC"); mkRow 216 [] (Use "MPI_Datatype"); mkRow 267 [] (Use "LONG_MAX"); mkRow 268 [] (Use "LONG_MIN");
  mkRow 280 [] (Use "SIMPLE_LOWER"); mkRow 287 [] (Use "SIMPLE_UPPER"); mkRow 311 [] (Use "Typestruct"); mkRow 360 [] (Use ".committed");
  mkRow 386 [] (Use "MPI_DATATYPE_NULL")
].
(** type_const.c 1-189; of the uses of a name, the first. *)
Definition t_type_const_c : list row := [
  mkRow 1 [] (Incl "type.h"); mkRow 7 [] (Use "Typestruct"); mkRow 7 [] (Use ".count"); mkRow 7 [] (Use ".lb"); mkRow 7 [] (Use ".ub"); mkRow 7 [] (Def "TSchar");
  mkRow 8 [] (Use ".committed"); mkRow 8 [] (Use ".o_lb"); mkRow 8 [] (Use ".o_ub"); mkRow 8 [] (Use ".pairs"); mkRow 9 [] (Use ".disp"); mkRow 9 [] (Use ".type");
  mkRow 9 [] (Use "Simpletype"); mkRow 9 [] (Use "SIMPLE_CHAR"); mkRow 10 [] (Def "TSshort"); mkRow 12 [] (Use "SIMPLE_SHORT"); mkRow 13 [] (Def "TSint");
  mkRow 15 [] (Use "SIMPLE_INT"); mkRow 16 [] (Def "TSlong"); mkRow 18 [] (Use "SIMPLE_LONG"); mkRow 19 [] (Def "TSuchar"); mkRow 21 [] (Use "SIMPLE_UCHAR");
  mkRow 22 [] (Def "TSushort"); mkRow 24 [] (Use "SIMPLE_USHORT"); mkRow 25 [] (Def "TSuint"); mkRow 27 [] (Use "SIMPLE_UINT"); mkRow 28 [] (Def "TSulong");
  mkRow 30 [] (Use "SIMPLE_ULONG"); mkRow 31 [] (Def "TSfloat"); mkRow 33 [] (Use "SIMPLE_FLOAT"); mkRow 34 [] (Def "TSdouble"); mkRow 36 [] (Use "SIMPLE_DOUBLE");
  mkRow 37 [] (Def "TSldouble"); mkRow 39 [] (Use "SIMPLE_LDOUBLE"); mkRow 42 [] (Def "TSbyte"); mkRow 43 [] (Use "SIMPLE_BYTE"); mkRow 44 [] (Def "TSpacked");
  mkRow 46 [] (Def "TSlower"); mkRow 47 [] (Use "SIMPLE_LOWER"); mkRow 48 [] (Def "TSupper"); mkRow 49 [] (Use "SIMPLE_UPPER"); mkRow 52 [] (Use "FSIZE_INTEGER");
  mkRow 52 [] (Def "TSinteger"); mkRow 53 [] (Use "SIMPLE_FINTEGER"); mkRow 54 [] (Use "FSIZE_REAL"); mkRow 54 [] (Def "TSreal"); mkRow 55 [] (Use "SIMPLE_FREAL");
  mkRow 56 [] (Use "FSIZE_DPRECISION"); mkRow 56 [] (Def "TSdprecision"); mkRow 57 [] (Use "SIMPLE_FDPRECISION"); mkRow 58 [] (Use "FSIZE_COMPLEX");
  mkRow 58 [] (Def "TScomplex"); mkRow 59 [] (Use "SIMPLE_FCOMPLEX"); mkRow 60 [] (Use "FSIZE_DCOMPLEX"); mkRow 60 [] (Def "TSdcomplex");
  mkRow 61 [] (Use "SIMPLE_FDCOMPLEX"); mkRow 62 [] (Use "FSIZE_LOGICAL"); mkRow 62 [] (Def "TSlogical"); mkRow 63 [] (Use "SIMPLE_FLOGICAL");
  mkRow 64 [] (Use "FSIZE_CHARACTER"); mkRow 64 [] (Def "TScharacter"); mkRow 65 [] (Use "SIMPLE_FCHARACTER"); mkRow 69 [] (Def "TSfloat_int");
  mkRow 72 [] (Def "TSdouble_int"); mkRow 75 [] (Def "TSlong_int"); mkRow 78 [] (Def "TS2int"); mkRow 81 [] (Def "TSshort_int"); mkRow 84 [] (Def "TSldouble_int");
  mkRow 90 [] (Def "TS2real"); mkRow 93 [] (Def "TS2dprecision"); mkRow 96 [] (Def "TS2integer"); mkRow 104 [] (Def "TSinteger1"); mkRow 106 [] (Use "SIMPLE_FINTEGER1");
  mkRow 108 [] (Def "TSinteger2"); mkRow 110 [] (Use "SIMPLE_FINTEGER2"); mkRow 112 [] (Def "TSinteger4"); mkRow 114 [] (Use "SIMPLE_FINTEGER4");
  mkRow 116 [] (Def "TSinteger8"); mkRow 118 [] (Use "SIMPLE_FINTEGER8"); mkRow 120 [] (Def "TSinteger16"); mkRow 122 [] (Use "SIMPLE_FINTEGER16");
  mkRow 125 [] (Def "TSreal4"); mkRow 127 [] (Use "SIMPLE_FREAL4"); mkRow 129 [] (Def "TSreal8"); mkRow 131 [] (Use "SIMPLE_FREAL8"); mkRow 133 [] (Def "TSreal16");
  mkRow 135 [] (Use "SIMPLE_FREAL16"); mkRow 137 [] (Def "TScomplex8"); mkRow 139 [] (Use "SIMPLE_FCOMPLEX8"); mkRow 141 [] (Def "TScomplex16");
  mkRow 143 [] (Use "SIMPLE_FCOMPLEX16"); mkRow 145 [] (Def "TScomplex32"); mkRow 147 [] (Use "SIMPLE_FCOMPLEX32"); mkRow 152 [] (Def "TSlonglong");
  mkRow 154 [] (Use "SIMPLE_LONGLONG"); mkRow 156 [] (Def "TSulonglong"); mkRow 158 [] (Use "SIMPLE_ULONGLONG"); mkRow 160 [] (Use "MPI_Offset");
  mkRow 160 [] (Def "TSoffset"); mkRow 162 [] (Use "SIMPLE_OFFSET"); mkRow 171 [] (Use "Datatype"); mkRow 171 [] (Def "simpletypes"); mkRow 172 [] (Use "TSchar");
  mkRow 172 [] (Use "TSshort"); mkRow 172 [] (Use "TSint"); mkRow 172 [] (Use "TSlong"); mkRow 173 [] (Use "TSuchar"); mkRow 173 [] (Use "TSushort");
  mkRow 173 [] (Use "TSuint"); mkRow 173 [] (Use "TSulong"); mkRow 174 [] (Use "TSfloat"); mkRow 174 [] (Use "TSdouble"); mkRow 174 [] (Use "TSldouble");
  mkRow 174 [] (Use "TSbyte"); mkRow 175 [] (Use "TSpacked"); mkRow 175 [] (Use "TSlower"); mkRow 175 [] (Use "TSupper"); mkRow 175 [] (Use "TSinteger");
  mkRow 176 [] (Use "TSreal"); mkRow 176 [] (Use "TSdprecision"); mkRow 176 [] (Use "TScomplex"); mkRow 176 [] (Use "TSdcomplex"); mkRow 177 [] (Use "TSlogical");
  mkRow 177 [] (Use "TScharacter"); mkRow 177 [] (Use "TS2real"); mkRow 177 [] (Use "TS2dprecision"); mkRow 178 [] (Use "TS2integer"); mkRow 178 [] (Use "TSfloat_int");
  mkRow 178 [] (Use "TSdouble_int"); mkRow 178 [] (Use "TSlong_int"); mkRow 179 [] (Use "TS2int"); mkRow 179 [] (Use "TSshort_int"); mkRow 179 [] (Use "TSldouble_int");
  mkRow 179 [] (Use "TSinteger1"); mkRow 180 [] (Use "TSinteger2"); mkRow 180 [] (Use "TSinteger4"); mkRow 180 [] (Use "TSinteger8"); mkRow 180 [] (Use "TSinteger16");
  mkRow 181 [] (Use "TSreal4"); mkRow 181 [] (Use "TSreal8"); mkRow 181 [] (Use "TSreal16"); mkRow 181 [] (Use "TScomplex8"); mkRow 182 [] (Use "TScomplex16");
  mkRow 182 [] (Use "TScomplex32"); mkRow 182 [] (Use "TSlonglong"); mkRow 182 [] (Use "TSulonglong"); mkRow 183 [] (Use "TSoffset")
].
(** list.h 1-45; of the uses of a name, the first. *)
Definition t_list_h : list row := [
  mkRow 20 [] (Use "pListitem"); mkRow 23 [] (Use "pList")
].
(** listP.h 1-33; of the uses of a name, the first. *)
Definition t_listP_h : list row := [
  mkRow 16 [] (Use "pListitem"); mkRow 16 [] (Def ".head"); mkRow 17 [] (Def ".tail"); mkRow 18 [] (Def ".count"); mkRow 19 [] (Def "List"); mkRow 24 [] (Def ".data");
  mkRow 25 [] (Def ".prev"); mkRow 26 [] (Def ".next"); mkRow 29 [(true, "CHECKS")] (Use "pList"); mkRow 29 [(true, "CHECKS")] (Def ".list"); mkRow 32 [] (Def "Listitem")
].
(** listops.h 1-23; of the uses of a name, the first. *)
Definition t_listops_h : list row := [
  mkRow 18 [] (Def "pList"); mkRow 19 [] (Def "pListitem"); mkRow 21 [] (Incl "list.h")
].
(** mpi.h 1-441; of the uses of a name, the first. *)
Definition t_mpi_h : list row := [
  mkRow 4 [] (Macro "MPI_MAX_LIBRARY_VERSION_STRING" []); mkRow 6 [] (Def "MPI_Comm"); mkRow 7 [] (Def "MPI_Request"); mkRow 10 [] (Macro "MPI_COMM_WORLD" []);
  mkRow 11 [] (Macro "MPI_COMM_NULL" []); mkRow 14 [] (Def "MPI_Group"); mkRow 17 [] (Macro "MPI_GROUP_EMPTY" []); mkRow 18 [] (Macro "MPI_GROUP_NULL" []);
  mkRow 28 [] (Macro "MPI_SUCCESS" []); mkRow 29 [] (Macro "MPI_ERR_BUFFER" []); mkRow 30 [] (Macro "MPI_ERR_COUNT" []); mkRow 31 [] (Macro "MPI_ERR_TYPE" []);
  mkRow 32 [] (Macro "MPI_ERR_TAG" []); mkRow 33 [] (Macro "MPI_ERR_COMM" []); mkRow 34 [] (Macro "MPI_ERR_RANK" []); mkRow 35 [] (Macro "MPI_ERR_REQUEST" []);
  mkRow 36 [] (Macro "MPI_ERR_ROOT" []); mkRow 37 [] (Macro "MPI_ERR_GROUP" []); mkRow 38 [] (Macro "MPI_ERR_OP" []); mkRow 39 [] (Macro "MPI_ERR_TOPOLOGY" []);
  mkRow 40 [] (Macro "MPI_ERR_DIMS" []); mkRow 41 [] (Macro "MPI_ERR_ARG" []); mkRow 42 [] (Macro "MPI_ERR_UNKNOWN" []); mkRow 43 [] (Macro "MPI_ERR_TRUNCATE" []);
  mkRow 44 [] (Macro "MPI_ERR_OTHER" []); mkRow 45 [] (Macro "MPI_ERR_INTERN" []); mkRow 46 [] (Macro "MPI_PENDING" []); mkRow 47 [] (Macro "MPI_ERR_IN_STATUS" []);
  mkRow 48 [] (Macro "MPI_ERR_LASTCODE" []); mkRow 60 [] (Macro "MPI_UNDEFINED" []); mkRow 66 [] (Def "MPI_Aint"); mkRow 67 [] (Macro "MPI_BOTTOM" []);
  mkRow 68 [] (Macro "MPI_IN_PLACE" []); mkRow 69 [] (Def "MPI_Datatype"); mkRow 74 [] (Macro "MPI_DATATYPE_NULL" []); mkRow 77 [] (Macro "MPI_CHAR" []);
  mkRow 78 [] (Macro "MPI_SIGNED_CHAR" []); mkRow 79 [] (Macro "MPI_WCHAR" []); mkRow 80 [] (Macro "MPI_SHORT" []); mkRow 81 [] (Macro "MPI_INT" []);
  mkRow 82 [] (Macro "MPI_LONG" []); mkRow 83 [] (Macro "MPI_UNSIGNED_CHAR" []); mkRow 84 [] (Macro "MPI_UNSIGNED_SHORT" []); mkRow 85 [] (Macro "MPI_UNSIGNED" []);
  mkRow 86 [] (Macro "MPI_UNSIGNED_LONG" []); mkRow 87 [] (Macro "MPI_FLOAT" []); mkRow 88 [] (Macro "MPI_DOUBLE" []); mkRow 89 [] (Macro "MPI_LONG_DOUBLE" []);
  mkRow 92 [] (Macro "MPI_BYTE" []); mkRow 93 [] (Macro "MPI_PACKED" []); mkRow 94 [] (Macro "MPI_LB" []); mkRow 95 [] (Macro "MPI_UB" []);
  mkRow 98 [] (Macro "MPI_INTEGER" []); mkRow 99 [] (Macro "MPI_REAL" []); mkRow 100 [] (Macro "MPI_DOUBLE_PRECISION" []); mkRow 102 [] (Macro "MPI_COMPLEX" []);
  mkRow 103 [] (Macro "MPI_DOUBLE_COMPLEX" []); mkRow 104 [] (Macro "MPI_LOGICAL" []); mkRow 105 [] (Macro "MPI_CHARACTER" []); mkRow 106 [] (Macro "MPI_2REAL" []);
  mkRow 107 [] (Macro "MPI_2DOUBLE_PRECISION" []); mkRow 108 [] (Macro "MPI_2INTEGER" []); mkRow 112 [] (Macro "MPI_FLOAT_INT" []);
  mkRow 113 [] (Macro "MPI_DOUBLE_INT" []); mkRow 114 [] (Macro "MPI_LONG_INT" []); mkRow 115 [] (Macro "MPI_2INT" []); mkRow 116 [] (Macro "MPI_SHORT_INT" []);
  mkRow 117 [] (Macro "MPI_LONG_DOUBLE_INT" []); mkRow 122 [] (Macro "MPI_INTEGER1" []); mkRow 123 [] (Macro "MPI_INTEGER2" []); mkRow 124 [] (Macro "MPI_INTEGER4" []);
  mkRow 125 [] (Macro "MPI_INTEGER8" []); mkRow 126 [] (Macro "MPI_INTEGER16" []); mkRow 128 [] (Macro "MPI_REAL4" []); mkRow 129 [] (Macro "MPI_REAL8" []);
  mkRow 130 [] (Macro "MPI_REAL16" []); mkRow 132 [] (Macro "MPI_COMPLEX8" []); mkRow 133 [] (Macro "MPI_COMPLEX16" []); mkRow 134 [] (Macro "MPI_COMPLEX32" []);
  mkRow 138 [] (Macro "MPI_LONG_LONG_INT" []); mkRow 139 [] (Macro "MPI_LONG_LONG" ["MPI_LONG_LONG_INT"]); mkRow 140 [] (Macro "MPI_UNSIGNED_LONG_LONG" []);
  mkRow 142 [] (Macro "MPI_OFFSET" []); mkRow 150 [] (Def "MPI_Fint"); mkRow 154 [] (Macro "MPI_ANY_TAG" []); mkRow 156 [] (Macro "MPI_ANY_SOURCE" []);
  mkRow 157 [] (Macro "MPI_PROC_NULL" []); mkRow 158 [] (Macro "MPI_ROOT" []); mkRow 160 [] (Macro "MPI_REQUEST_NULL" []);
  mkRow 162 [] (Macro "MPI_MAX_ERROR_STRING" []); mkRow 163 [] (Macro "MPI_MAX_PROCESSOR_NAME" []); mkRow 165 [] (Macro "MPI_THREAD_SINGLE" []);
  mkRow 166 [] (Macro "MPI_THREAD_FUNNELED" []); mkRow 167 [] (Macro "MPI_THREAD_SERIALIZED" []); mkRow 168 [] (Macro "MPI_THREAD_MULTIPLE" []);
  mkRow 181 [] (Def "MPI_Status_int"); mkRow 185 [] (Use "MPI_Status_int"); mkRow 185 [] (Def ".MPI_SOURCE"); mkRow 186 [] (Def ".MPI_TAG");
  mkRow 187 [] (Def ".MPI_ERROR"); mkRow 188 [] (Def ".get_count"); mkRow 190 [] (Def "MPI_Status"); mkRow 193 [] (Macro "MPI_STATUS_IGNORE" ["MPI_Status"]);
  mkRow 194 [] (Macro "MPI_STATUSES_IGNORE" ["MPI_Status"]); mkRow 200 [] (Def "MPI_Errhandler"); mkRow 202 [] (Macro "MPI_ERRORS_ARE_FATAL" ["MPI_Errhandler"]);
  mkRow 203 [] (Macro "MPI_ERRORS_RETURN" ["MPI_Errhandler"]); mkRow 211 [] (Def "MPI_Op"); mkRow 214 [] (Use "MPI_Datatype"); mkRow 214 [] (Def "MPI_User_function");
  mkRow 216 [] (Macro "MPI_OP_NULL" []); mkRow 218 [] (Macro "MPI_MAX" []); mkRow 219 [] (Macro "MPI_MIN" []); mkRow 220 [] (Macro "MPI_SUM" []);
  mkRow 221 [] (Macro "MPI_PROD" []); mkRow 222 [] (Macro "MPI_LAND" []); mkRow 223 [] (Macro "MPI_BAND" []); mkRow 224 [] (Macro "MPI_LOR" []);
  mkRow 225 [] (Macro "MPI_BOR" []); mkRow 226 [] (Macro "MPI_LXOR" []); mkRow 227 [] (Macro "MPI_BXOR" []); mkRow 228 [] (Macro "MPI_MAXLOC" []);
  mkRow 229 [] (Macro "MPI_MINLOC" []); mkRow 233 [] (Macro "MPI_STATUS_SIZE" ["MPI_Status"]); mkRow 237 [] (Def "MPI_Offset"); mkRow 243 [] (Def "MPI_Info");
  mkRow 245 [] (Macro "MPI_INFO_NULL" []); mkRow 257 [] (Use "MPI_Comm"); mkRow 292 [] (Use "MPI_Op"); mkRow 314 [] (Use "MPI_User_function");
  mkRow 316 [] (Use "MPI_Fint"); mkRow 324 [] (Use "MPI_Group"); mkRow 349 [] (Use "MPI_Info"); mkRow 359 [] (Use "MPI_Request"); mkRow 361 [] (Use "MPI_Status");
  mkRow 402 [] (Use "MPI_Aint"); mkRow 405 [] (Use "MPI_Errhandler")
].
(** mpiP.h 1-129; of the uses of a name, the first.  The two tests of line 56 are two rows. *)
Definition t_mpiP_h : list row := [
  mkRow 9 [] (Incl "unistd.h"); mkRow 10 [] (Incl "stdlib.h"); mkRow 11 [] (Incl "stdio.h"); mkRow 12 [] (Incl "string.h"); mkRow 14 [] (Incl "listops.h");
  mkRow 15 [] (Incl "mpi.h"); mkRow 30 [(true, "HAVE_CONFIG_H")] (Incl "config.h");
  mkRow 57 [(false, "HAVE_CONFIG_H"); (true, "FORTRAN_UNDERSCORE_")] (Macro "FC_FUNC" []);
  mkRow 57 [(false, "HAVE_CONFIG_H"); (false, "FORTRAN_UNDERSCORE_"); (true, "FORTRANUNDERSCORE")] (Macro "FC_FUNC" []);
  mkRow 59 [(false, "HAVE_CONFIG_H"); (false, "FORTRAN_UNDERSCORE_"); (false, "FORTRANUNDERSCORE"); (true, "FORTRAN_GNUF2C")] (Macro "FC_FUNC" []);
  mkRow 61 [(false, "HAVE_CONFIG_H"); (false, "FORTRAN_UNDERSCORE_"); (false, "FORTRANUNDERSCORE"); (false, "FORTRAN_GNUF2C"); (true, "FORTRAN_SAME")] (Macro "FC_FUNC" []);
  mkRow 63 [(false, "HAVE_CONFIG_H"); (false, "FORTRAN_UNDERSCORE_"); (false, "FORTRANUNDERSCORE"); (false, "FORTRAN_GNUF2C"); (false, "FORTRAN_SAME"); (true, "FORTRAN_CAPS_")] (Macro "FC_FUNC" []);
  mkRow 65 [(false, "HAVE_CONFIG_H"); (false, "FORTRAN_UNDERSCORE_"); (false, "FORTRANUNDERSCORE"); (false, "FORTRAN_GNUF2C"); (false, "FORTRAN_SAME"); (false, "FORTRAN_CAPS_")] (Stop);
  mkRow 67 [(false, "HAVE_CONFIG_H"); (false, "FORTRAN_UNDERSCORE_"); (false, "FORTRANUNDERSCORE"); (false, "FORTRAN_GNUF2C"); (false, "FORTRAN_SAME"); (false, "FORTRAN_CAPS_")] (Macro "FC_FUNC" []);
  mkRow 76 [] (Macro "MPI_GROUP_ONE" []); mkRow 84 [] (Use "pList"); mkRow 84 [] (Def ".sendlist"); mkRow 85 [] (Def ".recvlist"); mkRow 87 [] (Def ".num");
  mkRow 89 [] (Def "Comm"); mkRow 95 [] (Use "pListitem"); mkRow 95 [] (Def ".listitem"); mkRow 97 [] (Def ".buf"); mkRow 98 [] (Def ".source");
  mkRow 99 [] (Def ".tag"); mkRow 100 [] (Def ".complete"); mkRow 101 [] (Def ".count"); mkRow 102 [] (Use "MPI_Datatype"); mkRow 102 [] (Def ".type");
  mkRow 103 [] (Def "Req"); mkRow 115 [] (Use "MPI_Comm"); mkRow 122 [] (Use "FC_FUNC"); mkRow 124 [] (Use "MPI_Status")
].
(** type.h 1-125; of the uses of a name, the first. *)
Definition t_type_h : list row := [
  mkRow 7 [] (Incl "mpiP.h"); mkRow 11 [(true, "HAVE_CONFIG_H")] (Incl "config.h"); mkRow 15 [] (Def "Simpletype"); mkRow 19 [] (Def ".disp");
  mkRow 20 [] (Use "Simpletype"); mkRow 20 [] (Def ".type"); mkRow 21 [] (Def "typepair"); mkRow 25 [] (Def ".count"); mkRow 26 [] (Def ".ub"); mkRow 27 [] (Def ".lb");
  mkRow 28 [] (Def ".committed"); mkRow 29 [] (Def ".o_lb"); mkRow 30 [] (Def ".o_ub"); mkRow 35 [] (Use "typepair"); mkRow 35 [] (Def ".pairs");
  mkRow 36 [] (Def "Typestruct"); mkRow 38 [] (Use "Typestruct"); mkRow 38 [] (Def "Datatype"); mkRow 41 [] (Macro "SIMPLE_CHAR" []);
  mkRow 42 [] (Macro "SIMPLE_SHORT" []); mkRow 43 [] (Macro "SIMPLE_INT" []); mkRow 44 [] (Macro "SIMPLE_LONG" []); mkRow 45 [] (Macro "SIMPLE_UCHAR" []);
  mkRow 46 [] (Macro "SIMPLE_USHORT" []); mkRow 47 [] (Macro "SIMPLE_UINT" []); mkRow 48 [] (Macro "SIMPLE_ULONG" []); mkRow 49 [] (Macro "SIMPLE_FLOAT" []);
  mkRow 50 [] (Macro "SIMPLE_DOUBLE" []); mkRow 51 [] (Macro "SIMPLE_LDOUBLE" []); mkRow 52 [] (Macro "SIMPLE_BYTE" []); mkRow 53 [] (Macro "SIMPLE_LOWER" []);
  mkRow 54 [] (Macro "SIMPLE_UPPER" []); mkRow 55 [] (Macro "SIMPLE_FINTEGER" []); mkRow 56 [] (Macro "SIMPLE_FREAL" []); mkRow 57 [] (Macro "SIMPLE_FDPRECISION" []);
  mkRow 58 [] (Macro "SIMPLE_FCOMPLEX" []); mkRow 59 [] (Macro "SIMPLE_FDCOMPLEX" []); mkRow 60 [] (Macro "SIMPLE_FLOGICAL" []);
  mkRow 61 [] (Macro "SIMPLE_FCHARACTER" []); mkRow 63 [] (Macro "SIMPLE_FINTEGER1" []); mkRow 64 [] (Macro "SIMPLE_FINTEGER2" []);
  mkRow 65 [] (Macro "SIMPLE_FINTEGER4" []); mkRow 66 [] (Macro "SIMPLE_FINTEGER8" []); mkRow 67 [] (Macro "SIMPLE_FINTEGER16" []);
  mkRow 69 [] (Macro "SIMPLE_FREAL4" []); mkRow 70 [] (Macro "SIMPLE_FREAL8" []); mkRow 71 [] (Macro "SIMPLE_FREAL16" []); mkRow 73 [] (Macro "SIMPLE_FCOMPLEX8" []);
  mkRow 74 [] (Macro "SIMPLE_FCOMPLEX16" []); mkRow 75 [] (Macro "SIMPLE_FCOMPLEX32" []); mkRow 77 [] (Macro "SIMPLE_LONGLONG" []);
  mkRow 78 [] (Macro "SIMPLE_ULONGLONG" []); mkRow 80 [] (Macro "SIMPLE_OFFSET" []); mkRow 84 [] (Use "Datatype"); mkRow 84 [] (Use "MPI_Aint");
  mkRow 87 [] (Use "MPI_Datatype"); mkRow 101 [(true, "CONFIG_FORT_REAL")] (Macro "FSIZE_REAL" ["CONFIG_FORT_REAL"]);
  mkRow 103 [(false, "CONFIG_FORT_REAL")] (Macro "FSIZE_REAL" []); mkRow 107 [(true, "CONFIG_FORT_DOUBLE")] (Macro "FSIZE_DPRECISION" ["CONFIG_FORT_DOUBLE"]);
  mkRow 109 [(false, "CONFIG_FORT_DOUBLE")] (Macro "FSIZE_DPRECISION" []); mkRow 112 [] (Macro "FSIZE_INTEGER" []); mkRow 113 [] (Macro "FSIZE_COMPLEX" ["FSIZE_REAL"]);
  mkRow 114 [] (Macro "FSIZE_DCOMPLEX" ["FSIZE_DPRECISION"]); mkRow 115 [] (Macro "FSIZE_LOGICAL" []); mkRow 116 [] (Macro "FSIZE_CHARACTER" []);
  mkRow 118 [] (Def "simpletypes"); mkRow 122 [] (Use "Comm")
].
(** config.h as configure writes it always defines FC_FUNC; the macros of the options are in [on] below (configure.ac 6, configure.ac 31). *)
Definition t_config_h : list row := [mkRow 0 [] (Macro "FC_FUNC" [])].
(** What the headers of the C library define of what is used; that they do is in the C standard and in POSIX (mpiP.h 9-12, time.c 2-3, copy.c 13). *)
Definition c_names : list (string * list string) := [
  ("unistd.h", ["NULL"; "size_t"]); ("stdlib.h", ["NULL"; "size_t"]); ("stdio.h", ["NULL"; "stderr"; "stdout"; "size_t"; "FILE"]); ("string.h", ["NULL"; "size_t"]); ("sys/time.h", ["timeval"; ".tv_sec"; ".tv_usec"]); ("time.h", ["NULL"; "size_t"]); ("limits.h", ["INT_MAX"; "INT_MIN"; "LONG_MAX"; "LONG_MIN"])
].
(** All the files (cart.c 1 to type_const.c 171, list.h 1 to type.h 125). *)
Definition texts : list (string * list row) := [
  ("cart.c", t_cart_c); ("collective.c", t_collective_c); ("comm.c", t_comm_c); ("copy.c", t_copy_c); ("error.c", t_error_c); ("getcount.c", t_getcount_c); ("group.c", t_group_c); ("handles.c", t_handles_c); ("ic_merge.c", t_ic_merge_c); ("info.c", t_info_c); ("list.c", t_list_c); ("mpi.c", t_mpi_c); ("op.c", t_op_c); ("pack.c", t_pack_c); ("probe.c", t_probe_c); ("recv.c", t_recv_c); ("req.c", t_req_c); ("send.c", t_send_c); ("time.c", t_time_c); ("type.c", t_type_c); ("type_const.c", t_type_const_c); ("list.h", t_list_h); ("listP.h", t_listP_h); ("listops.h", t_listops_h); ("mpi.h", t_mpi_h); ("mpiP.h", t_mpiP_h); ("type.h", t_type_h); ("config.h", t_config_h)
] ++ map (fun p => (fst p, map (fun n => mkRow 0 [] (Def n)) (snd p))) c_names.
(** The text of a file (e.g. send.c 1). *)
Definition text_of (f : string) : option (list row) := match find (fun p => String.eqb (fst p) f) texts with Some p => Some (snd p) | None => None end.

(** What comes of it, with the file and the line (e.g. mpiP.h 84). *)
Inductive ev := EDef (f : string) (l : Z) (n : string) (body : list string) | EUse (f : string) (l : Z) (n : string) | EStop (f : string) (l : Z).
(** Whether a name is in a list (e.g. mpiP.h 29). *)
Definition inb (s : string) (l : list string) : bool := existsb (String.eqb s) l.
(** Whether the lines under these tests are read (mpiP.h 29-69).  [on] are the macros given to the compiler or defined in config.h; that one of config.h is
    defined only once config.h has been read is left out. *)
Definition readb (on : string -> bool) (w : list (bool * string)) : bool := forallb (fun x => Bool.eqb (on (snd x)) (fst x)) w.
(** Reading a file with its headers; [seen] are the guarded headers read so far (mpi.h 1-2, mpiP.h 1-2, type.h 1-2, listops.h 9-10; e.g. handles.c 8-9).  [fuel] bounds how deep
    headers include headers. *)
Fixpoint expand (fuel : nat) (on : string -> bool) (seen : list string) (f : string) : option (list ev * list string) :=
  match fuel, text_of f with
  | S k, Some rs =>
      (fix go (seen : list string) (rs : list row) : option (list ev * list string) :=
         match rs with
         | [] => Some ([], seen)
         | r :: rs =>
             if readb on (r_when r) then
               match r_item r with
               | Incl h =>
                   if inb h guarded && inb h seen then go seen rs
                   else match expand k on (if inb h guarded then h :: seen else seen) h with
                        | Some (t, seen) => match go seen rs with Some (t', seen) => Some (app t t', seen) | None => None end
                        | None => None
                        end
               | Macro n b => match go seen rs with Some (t, seen) => Some (EDef f (r_line r) n b :: t, seen) | None => None end
               | Def n => match go seen rs with Some (t, seen) => Some (EDef f (r_line r) n [] :: t, seen) | None => None end
               | Use n => match go seen rs with Some (t, seen) => Some (EUse f (r_line r) n :: t, seen) | None => None end
               | Stop => match go seen rs with Some (t, seen) => Some (EStop f (r_line r) :: t, seen) | None => None end
               end
             else go seen rs
         end) seen rs
  | _, _ => None
  end.

(** The variables of the files, and whether they are static; each with the line of its definition.  The declaration in type.h is not one (type.h 118).  (handles.c 68 to
    type_const.c 171) *)
Definition variables : list (string * string * Z * bool) := [
  ("handles.c", "block0", 68, true); ("handles.c", "blocks", 69, true); ("handles.c", "nblocks", 70, true); ("handles.c", "need_to_init", 73, true);
  ("handles.c", "nextfree", 74, true); ("list.c", "itemcount", 21, true); ("list.c", "headcount", 22, true); ("mpi.c", "initialized", 7, true);
  ("mpi.c", "f_MPI_STATUS_IGNORE", 12, true); ("mpi.c", "f_MPI_STATUSES_IGNORE", 13, true); ("mpi.c", "f_MPI_IN_PLACE", 14, true);
  ("mpi.c", "mpi_version_string", 16, true); ("type_const.c", "TSchar", 7, false); ("type_const.c", "TSshort", 10, false); ("type_const.c", "TSint", 13, false);
  ("type_const.c", "TSlong", 16, false); ("type_const.c", "TSuchar", 19, false); ("type_const.c", "TSushort", 22, false); ("type_const.c", "TSuint", 25, false);
  ("type_const.c", "TSulong", 28, false); ("type_const.c", "TSfloat", 31, false); ("type_const.c", "TSdouble", 34, false); ("type_const.c", "TSldouble", 37, false);
  ("type_const.c", "TSbyte", 42, false); ("type_const.c", "TSpacked", 44, false); ("type_const.c", "TSlower", 46, false); ("type_const.c", "TSupper", 48, false);
  ("type_const.c", "TSinteger", 52, false); ("type_const.c", "TSreal", 54, false); ("type_const.c", "TSdprecision", 56, false); ("type_const.c", "TScomplex", 58, false);
  ("type_const.c", "TSdcomplex", 60, false); ("type_const.c", "TSlogical", 62, false); ("type_const.c", "TScharacter", 64, false);
  ("type_const.c", "TSfloat_int", 69, false); ("type_const.c", "TSdouble_int", 72, false); ("type_const.c", "TSlong_int", 75, false);
  ("type_const.c", "TS2int", 78, false); ("type_const.c", "TSshort_int", 81, false); ("type_const.c", "TSldouble_int", 84, false);
  ("type_const.c", "TS2real", 90, false); ("type_const.c", "TS2dprecision", 93, false); ("type_const.c", "TS2integer", 96, false);
  ("type_const.c", "TSinteger1", 104, false); ("type_const.c", "TSinteger2", 108, false); ("type_const.c", "TSinteger4", 112, false);
  ("type_const.c", "TSinteger8", 116, false); ("type_const.c", "TSinteger16", 120, false); ("type_const.c", "TSreal4", 125, false);
  ("type_const.c", "TSreal8", 129, false); ("type_const.c", "TSreal16", 133, false); ("type_const.c", "TScomplex8", 137, false);
  ("type_const.c", "TScomplex16", 141, false); ("type_const.c", "TScomplex32", 145, false); ("type_const.c", "TSlonglong", 152, false);
  ("type_const.c", "TSulonglong", 156, false); ("type_const.c", "TSoffset", 160, false); ("type_const.c", "simpletypes", 171, false)
].
(** The names that the object file of [f] gives to the linker: its routines and variables that are not static (e.g. copy.c 30-37, type_const.c 171). *)
Definition gives (m : mangling) (f : string) : list string :=
  map (fun g => symbol m (fn_name g)) (filter (fun g => String.eqb (fn_file g) f && negb (fn_static g)) library) ++
  map (fun v => snd (fst (fst v))) (filter (fun v => String.eqb (fst (fst (fst v))) f && negb (snd v)) variables).
(** The names it needs: the routines called or passed and the variables of other files (e.g. recv.c 81, type.c 36). *)
Definition wants (m : mangling) (f : string) : list string :=
  flat_map (fun g => map (symbol m) (fn_calls g ++ fn_passes g)) (filter (fun g => String.eqb (fn_file g) f) library) ++
  match text_of f with
  | Some rs => flat_map (fun r => match r_item r with Use n => if existsb (fun v => String.eqb (snd (fst (fst v))) n && negb (String.eqb (fst (fst (fst v))) f)) variables then [n] else [] | _ => [] end) rs
  | None => []
  end.
(** A program as the linker sees it: the names it defines and the names it needs (e.g. tests/ctest.c 1025); it is linked with libmpi-serial.a (Makefile.am 1, tests/Makefile.am 5). *)
Record program := mkProg { own : list string; used : list string }.
(** The linker takes a file out of the library if it gives a name that is needed and that the program does not define itself (Makefile.am 1-4). *)
Inductive taken (m : mangling) (p : program) : string -> Prop :=
| tk_program s f : In s (used p) -> ~ In s (own p) -> In f sources -> In s (gives m f) -> taken m p f
| tk_library g s f : taken m p g -> In s (wants m g) -> ~ In s (own p) -> In f sources -> In s (gives m f) -> taken m p f.
