(** The constants of the two headers, as text: name and value; the line is in the comment.  Fortran names are not case sensitive and
    are written in capitals.  Left out of mpi.h: macros that are not integer constants (MPI_IN_PLACE and the status
    sentinels); of mpif.h: MPI_OFFSET_KIND, a kind computed by the compiler. *)
From Verif Require Import Base.

(** mpi.h 4-245: the constants. *)
Definition mpi_h : list (string * Z) := [
  ("MPI_MAX_LIBRARY_VERSION_STRING", 80) (* 4 *);
  ("MPI_COMM_WORLD", 1) (* 10 *);
  ("MPI_COMM_NULL", 0) (* 11 *);
  ("MPI_GROUP_EMPTY", -1) (* 17 *);
  ("MPI_GROUP_NULL", 0) (* 18 *);
  ("MPI_SUCCESS", 0) (* 28 *);
  ("MPI_ERR_BUFFER", -1) (* 29 *);
  ("MPI_ERR_COUNT", -1) (* 30 *);
  ("MPI_ERR_TYPE", -1) (* 31 *);
  ("MPI_ERR_TAG", -1) (* 32 *);
  ("MPI_ERR_COMM", -1) (* 33 *);
  ("MPI_ERR_RANK", -1) (* 34 *);
  ("MPI_ERR_REQUEST", -1) (* 35 *);
  ("MPI_ERR_ROOT", -1) (* 36 *);
  ("MPI_ERR_GROUP", -1) (* 37 *);
  ("MPI_ERR_OP", -1) (* 38 *);
  ("MPI_ERR_TOPOLOGY", -1) (* 39 *);
  ("MPI_ERR_DIMS", -1) (* 40 *);
  ("MPI_ERR_ARG", -1) (* 41 *);
  ("MPI_ERR_UNKNOWN", -1) (* 42 *);
  ("MPI_ERR_TRUNCATE", -1) (* 43 *);
  ("MPI_ERR_OTHER", -1) (* 44 *);
  ("MPI_ERR_INTERN", -1) (* 45 *);
  ("MPI_PENDING", -1) (* 46 *);
  ("MPI_ERR_IN_STATUS", -1) (* 47 *);
  ("MPI_ERR_LASTCODE", -1) (* 48 *);
  ("MPI_UNDEFINED", -1) (* 60 *);
  ("MPI_BOTTOM", 0) (* 67 *);
  ("MPI_DATATYPE_NULL", 0) (* 74 *);
  ("MPI_CHAR", -1) (* 77 *);
  ("MPI_SIGNED_CHAR", -46) (* 78 *);
  ("MPI_WCHAR", -47) (* 79 *);
  ("MPI_SHORT", -2) (* 80 *);
  ("MPI_INT", -3) (* 81 *);
  ("MPI_LONG", -4) (* 82 *);
  ("MPI_UNSIGNED_CHAR", -5) (* 83 *);
  ("MPI_UNSIGNED_SHORT", -6) (* 84 *);
  ("MPI_UNSIGNED", -7) (* 85 *);
  ("MPI_UNSIGNED_LONG", -8) (* 86 *);
  ("MPI_FLOAT", -9) (* 87 *);
  ("MPI_DOUBLE", -10) (* 88 *);
  ("MPI_LONG_DOUBLE", -11) (* 89 *);
  ("MPI_BYTE", -12) (* 92 *);
  ("MPI_PACKED", -13) (* 93 *);
  ("MPI_LB", -14) (* 94 *);
  ("MPI_UB", -15) (* 95 *);
  ("MPI_INTEGER", -16) (* 98 *);
  ("MPI_REAL", -17) (* 99 *);
  ("MPI_DOUBLE_PRECISION", -18) (* 100 *);
  ("MPI_COMPLEX", -19) (* 102 *);
  ("MPI_DOUBLE_COMPLEX", -20) (* 103 *);
  ("MPI_LOGICAL", -21) (* 104 *);
  ("MPI_CHARACTER", -22) (* 105 *);
  ("MPI_2REAL", -23) (* 106 *);
  ("MPI_2DOUBLE_PRECISION", -24) (* 107 *);
  ("MPI_2INTEGER", -25) (* 108 *);
  ("MPI_FLOAT_INT", -26) (* 112 *);
  ("MPI_DOUBLE_INT", -27) (* 113 *);
  ("MPI_LONG_INT", -28) (* 114 *);
  ("MPI_2INT", -29) (* 115 *);
  ("MPI_SHORT_INT", -30) (* 116 *);
  ("MPI_LONG_DOUBLE_INT", -31) (* 117 *);
  ("MPI_INTEGER1", -32) (* 122 *);
  ("MPI_INTEGER2", -33) (* 123 *);
  ("MPI_INTEGER4", -34) (* 124 *);
  ("MPI_INTEGER8", -35) (* 125 *);
  ("MPI_INTEGER16", -36) (* 126 *);
  ("MPI_REAL4", -37) (* 128 *);
  ("MPI_REAL8", -38) (* 129 *);
  ("MPI_REAL16", -39) (* 130 *);
  ("MPI_COMPLEX8", -40) (* 132 *);
  ("MPI_COMPLEX16", -41) (* 133 *);
  ("MPI_COMPLEX32", -42) (* 134 *);
  ("MPI_LONG_LONG_INT", -43) (* 138 *);
  ("MPI_LONG_LONG", -43) (* 139 *);
  ("MPI_UNSIGNED_LONG_LONG", -44) (* 140 *);
  ("MPI_OFFSET", -45) (* 142 *);
  ("MPI_ANY_TAG", -1) (* 154 *);
  ("MPI_ANY_SOURCE", -1) (* 156 *);
  ("MPI_PROC_NULL", -2) (* 157 *);
  ("MPI_ROOT", -3) (* 158 *);
  ("MPI_REQUEST_NULL", 0) (* 160 *);
  ("MPI_MAX_ERROR_STRING", 128) (* 162 *);
  ("MPI_MAX_PROCESSOR_NAME", 128) (* 163 *);
  ("MPI_THREAD_SINGLE", 0) (* 165 *);
  ("MPI_THREAD_FUNNELED", 1) (* 166 *);
  ("MPI_THREAD_SERIALIZED", 2) (* 167 *);
  ("MPI_THREAD_MULTIPLE", 3) (* 168 *);
  ("MPI_OP_NULL", 0) (* 216 *);
  ("MPI_MAX", 0) (* 218 *);
  ("MPI_MIN", 0) (* 219 *);
  ("MPI_SUM", 0) (* 220 *);
  ("MPI_PROD", 0) (* 221 *);
  ("MPI_LAND", 0) (* 222 *);
  ("MPI_BAND", 0) (* 223 *);
  ("MPI_LOR", 0) (* 224 *);
  ("MPI_BOR", 0) (* 225 *);
  ("MPI_LXOR", 0) (* 226 *);
  ("MPI_BXOR", 0) (* 227 *);
  ("MPI_MAXLOC", 0) (* 228 *);
  ("MPI_MINLOC", 0) (* 229 *);
  ("MPI_INFO_NULL", 0) (* 245 *);
  ("MPI_ERRORS_ARE_FATAL", 0) (* 202 *);
  ("MPI_ERRORS_RETURN", -1) (* 203 *);
  ("MPI_STATUS_SIZE", 4) (* 233: sizeof(MPI_Status) / sizeof(int) *)
]%string.

(** mpif.h 7-344: the constants. *)
Definition mpif_h : list (string * Z) := [
  ("MPI_COMM_WORLD", 1) (* 7 *);
  ("MPI_BOTTOM", 0) (* 14 *);
  ("MPI_ANY_SOURCE", -1) (* 22 *);
  ("MPI_ANY_TAG", -1) (* 22 *);
  ("MPI_TAG_UB", 1681915906) (* 22 *);
  ("MPI_PROC_NULL", -2) (* 25 *);
  ("MPI_ROOT", -3) (* 25 *);
  ("MPI_COMM_NULL", 0) (* 28 *);
  ("MPI_REQUEST_NULL", 0) (* 28 *);
  ("MPI_GROUP_NULL", 0) (* 31 *);
  ("MPI_GROUP_EMPTY", -1) (* 31 *);
  ("MPI_MAX_ERROR_STRING", 128) (* 34 *);
  ("MPI_MAX_PROCESSOR_NAME", 128) (* 37 *);
  ("MPI_SUCCESS", 0) (* 44 *);
  ("MPI_ERR_BUFFER", -1) (* 47 *);
  ("MPI_ERR_COUNT", -1) (* 50 *);
  ("MPI_ERR_TYPE", -1) (* 53 *);
  ("MPI_ERR_TAG", -1) (* 56 *);
  ("MPI_ERR_COMM", -1) (* 59 *);
  ("MPI_ERR_RANK", -1) (* 62 *);
  ("MPI_ERR_REQUEST", -1) (* 65 *);
  ("MPI_ERR_ROOT", -1) (* 68 *);
  ("MPI_ERR_GROUP", -1) (* 71 *);
  ("MPI_ERR_OP", -1) (* 74 *);
  ("MPI_ERR_TOPOLOGY", -1) (* 77 *);
  ("MPI_ERR_DIMS", -1) (* 80 *);
  ("MPI_ERR_ARG", -1) (* 83 *);
  ("MPI_ERR_UNKNOWN", -1) (* 86 *);
  ("MPI_ERR_TRUNCATE", -1) (* 89 *);
  ("MPI_ERR_OTHER", -1) (* 92 *);
  ("MPI_ERR_INTERN", -1) (* 95 *);
  ("MPI_PENDING", -1) (* 98 *);
  ("MPI_ERR_IN_STATUS", -1) (* 101 *);
  ("MPI_ERR_LASTCODE", -1) (* 104 *);
  ("MPI_ERRORS_RETURN", -1) (* 107 *);
  ("MPI_THREAD_SINGLE", 0) (* 110 *);
  ("MPI_THREAD_FUNNELED", 1) (* 112 *);
  ("MPI_THREAD_SERIALIZED", 2) (* 114 *);
  ("MPI_THREAD_MULTIPLE", 3) (* 116 *);
  ("MPI_UNDEFINED", -1) (* 123 *);
  ("MPI_STATUS_SIZE", 4) (* 135 *);
  ("MPI_SOURCE", 1) (* 138 *);
  ("MPI_TAG", 2) (* 138 *);
  ("MPI_ERROR", 3) (* 138 *);
  ("MPI_DATATYPE_NULL", 0) (* 168 *);
  ("MPI_BYTE", -12) (* 171 *);
  ("MPI_PACKED", -13) (* 174 *);
  ("MPI_LB", -14) (* 177 *);
  ("MPI_UB", -15) (* 180 *);
  ("MPI_INTEGER", -16) (* 183 *);
  ("MPI_REAL", -17) (* 186 *);
  ("MPI_DOUBLE_PRECISION", -18) (* 189 *);
  ("MPI_COMPLEX", -19) (* 192 *);
  ("MPI_DOUBLE_COMPLEX", -20) (* 195 *);
  ("MPI_LOGICAL", -21) (* 198 *);
  ("MPI_CHARACTER", -22) (* 201 *);
  ("MPI_2REAL", -23) (* 204 *);
  ("MPI_2DOUBLE_PRECISION", -24) (* 207 *);
  ("MPI_2INTEGER", -25) (* 210 *);
  ("MPI_INTEGER1", -32) (* 218 *);
  ("MPI_INTEGER2", -33) (* 221 *);
  ("MPI_INTEGER4", -34) (* 224 *);
  ("MPI_INTEGER8", -35) (* 227 *);
  ("MPI_INTEGER16", -36) (* 230 *);
  ("MPI_REAL4", -37) (* 234 *);
  ("MPI_REAL8", -38) (* 237 *);
  ("MPI_REAL16", -39) (* 240 *);
  ("MPI_COMPLEX8", -40) (* 244 *);
  ("MPI_COMPLEX16", -41) (* 247 *);
  ("MPI_COMPLEX32", -42) (* 250 *);
  ("MPI_LONG_LONG_INT", -43) (* 253 *);
  ("MPI_LONG_LONG", -43) (* 256 *);
  ("MPI_UNSIGNED_LONG_LONG", -44) (* 259 *);
  ("MPI_OFFSET", -45) (* 262 *);
  ("MPI_SUM", 0) (* 272 *);
  ("MPI_MAX", 0) (* 274 *);
  ("MPI_MIN", 0) (* 276 *);
  ("MPI_PROD", 0) (* 278 *);
  ("MPI_LAND", 0) (* 280 *);
  ("MPI_BAND", 0) (* 282 *);
  ("MPI_LOR", 0) (* 284 *);
  ("MPI_BOR", 0) (* 286 *);
  ("MPI_LXOR", 0) (* 288 *);
  ("MPI_BXOR", 0) (* 290 *);
  ("MPI_MINLOC", 0) (* 292 *);
  ("MPI_MAXLOC", 0) (* 294 *);
  ("MPI_OP_NULL", 0) (* 296 *);
  ("MPI_MODE_RDONLY", 0) (* 314 *);
  ("MPI_MODE_CREATE", 1) (* 317 *);
  ("MPI_MODE_RDWR", 2) (* 320 *);
  ("MPI_INFO_NULL", 0) (* 328 *);
  ("MPI_MAX_LIBRARY_VERSION_STRING", 80) (* 336 *);
  ("MPI_VERSION", 1) (* 342 *);
  ("MPI_SUBVERSION", 0) (* 344 *)
]%string.
