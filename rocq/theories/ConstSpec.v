(** Which constants of the headers a program must be able to tell apart, by what they stand for. *)
From Verif Require Import Base.
Local Open Scope string_scope.

Definition type_names : list string :=
  [ "MPI_DATATYPE_NULL"; "MPI_CHAR"; "MPI_SIGNED_CHAR"; "MPI_WCHAR"; "MPI_SHORT"; "MPI_INT"; "MPI_LONG"; "MPI_UNSIGNED_CHAR"; "MPI_UNSIGNED_SHORT";
    "MPI_UNSIGNED"; "MPI_UNSIGNED_LONG"; "MPI_FLOAT"; "MPI_DOUBLE"; "MPI_LONG_DOUBLE"; "MPI_BYTE"; "MPI_PACKED"; "MPI_LB"; "MPI_UB"; "MPI_INTEGER";
    "MPI_REAL"; "MPI_DOUBLE_PRECISION"; "MPI_COMPLEX"; "MPI_DOUBLE_COMPLEX"; "MPI_LOGICAL"; "MPI_CHARACTER"; "MPI_2REAL"; "MPI_2DOUBLE_PRECISION";
    "MPI_2INTEGER"; "MPI_FLOAT_INT"; "MPI_DOUBLE_INT"; "MPI_LONG_INT"; "MPI_2INT"; "MPI_SHORT_INT"; "MPI_LONG_DOUBLE_INT"; "MPI_INTEGER1"; "MPI_INTEGER2";
    "MPI_INTEGER4"; "MPI_INTEGER8"; "MPI_INTEGER16"; "MPI_REAL4"; "MPI_REAL8"; "MPI_REAL16"; "MPI_COMPLEX8"; "MPI_COMPLEX16"; "MPI_COMPLEX32";
    "MPI_LONG_LONG_INT"; "MPI_LONG_LONG"; "MPI_UNSIGNED_LONG_LONG"; "MPI_OFFSET" ].
Definition rank_names : list string := [ "MPI_ANY_SOURCE"; "MPI_PROC_NULL"; "MPI_ROOT" ].
Definition tag_names : list string := [ "MPI_ANY_TAG"; "MPI_TAG_UB" ].
Definition level_names : list string := [ "MPI_THREAD_SINGLE"; "MPI_THREAD_FUNNELED"; "MPI_THREAD_SERIALIZED"; "MPI_THREAD_MULTIPLE" ].
Definition comm_names : list string := [ "MPI_COMM_NULL"; "MPI_COMM_WORLD" ].
Definition group_names : list string := [ "MPI_GROUP_NULL"; "MPI_GROUP_EMPTY" ].
Definition handler_names : list string := [ "MPI_ERRORS_ARE_FATAL"; "MPI_ERRORS_RETURN" ].
Definition mode_names : list string := [ "MPI_MODE_RDONLY"; "MPI_MODE_CREATE"; "MPI_MODE_RDWR" ].
Definition field_names : list string := [ "MPI_SOURCE"; "MPI_TAG"; "MPI_ERROR" ].
Definition error_names : list string :=
  [ "MPI_ERR_BUFFER"; "MPI_ERR_COUNT"; "MPI_ERR_TYPE"; "MPI_ERR_TAG"; "MPI_ERR_COMM"; "MPI_ERR_RANK"; "MPI_ERR_REQUEST"; "MPI_ERR_ROOT"; "MPI_ERR_GROUP";
    "MPI_ERR_OP"; "MPI_ERR_TOPOLOGY"; "MPI_ERR_DIMS"; "MPI_ERR_ARG"; "MPI_ERR_UNKNOWN"; "MPI_ERR_TRUNCATE"; "MPI_ERR_OTHER"; "MPI_ERR_INTERN"; "MPI_PENDING";
    "MPI_ERR_IN_STATUS"; "MPI_ERR_LASTCODE" ].
Definition op_names : list string :=
  [ "MPI_OP_NULL"; "MPI_MAX"; "MPI_MIN"; "MPI_SUM"; "MPI_PROD"; "MPI_LAND"; "MPI_BAND"; "MPI_LOR"; "MPI_BOR"; "MPI_LXOR"; "MPI_BXOR"; "MPI_MAXLOC"; "MPI_MINLOC" ].
(** Alone of their kind, or quantities that may coincide. *)
Definition other_names : list string :=
  [ "MPI_SUCCESS"; "MPI_UNDEFINED"; "MPI_BOTTOM"; "MPI_REQUEST_NULL"; "MPI_INFO_NULL"; "MPI_STATUS_SIZE"; "MPI_MAX_ERROR_STRING"; "MPI_MAX_PROCESSOR_NAME";
    "MPI_MAX_LIBRARY_VERSION_STRING"; "MPI_VERSION"; "MPI_SUBVERSION" ].

(** The kinds whose members are told apart, and those of which they are not. *)
Definition kept_apart : list (list string) :=
  [ type_names; rank_names; tag_names; level_names; comm_names; group_names; handler_names; mode_names; field_names ].
Definition lumped : list (list string) := [ error_names; op_names ].

(** Two names for one thing. *)
Definition synonyms (n m : string) : Prop := n = m \/ (n = "MPI_LONG_LONG_INT" /\ m = "MPI_LONG_LONG") \/ (n = "MPI_LONG_LONG" /\ m = "MPI_LONG_LONG_INT").

(** Different things of one kind have different values. *)
Definition told_apart (header : list (string * Z)) (kind : list string) : Prop :=
  forall n m v w, In n kind -> In m kind -> In (n, v) header -> In (m, w) header -> v = w -> synonyms n m.
