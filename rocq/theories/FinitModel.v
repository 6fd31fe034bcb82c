(** Model of fort.F90: MPI_INIT and MPI_INIT_THREAD called from Fortran, and how the library learns where the Fortran variables
    MPI_STATUS_IGNORE, MPI_STATUSES_IGNORE and MPI_IN_PLACE are.  Fortran passes addresses by position, the C side (mpi.c) names
    its parameters; both lists are given here as they stand in the text. *)
From Verif Require Import Base ListModel HandleModel TypeModel CopyModel SysModel CollModel SysCalls HeaderModel FortModel.
Local Open Scope string_scope.

(** An actual argument in fort.F90 30-47: a constant of mpif.h, a whole array, or the i-th element of an array. *)
Inductive fvar := FConst (name : string) | FWhole (name : string) | FElem (name : string) (i : Z) | FElemAt (name const : string).

(** fort.F90 30-47: the call of mpi_init_fort. *)
Definition init_actuals : list fvar :=
  [ FConst "MPI_COMM_WORLD";
    FConst "MPI_ANY_SOURCE"; FConst "MPI_ANY_TAG";
    FConst "MPI_PROC_NULL"; FConst "MPI_ROOT";
    FConst "MPI_COMM_NULL"; FConst "MPI_REQUEST_NULL";
    FConst "MPI_GROUP_NULL"; FConst "MPI_GROUP_EMPTY";
    FConst "MPI_UNDEFINED";
    FConst "MPI_MAX_ERROR_STRING";
    FConst "MPI_MAX_PROCESSOR_NAME";
    FConst "MPI_STATUS_SIZE";
    FConst "MPI_SOURCE"; FConst "MPI_TAG"; FConst "MPI_ERROR";
    FWhole "status"; FElemAt "status" "MPI_SOURCE"; FElemAt "status" "MPI_TAG"; FElemAt "status" "MPI_ERROR";
    FConst "MPI_INTEGER"; FElem "fint" 1; FElem "fint" 2;
    FConst "MPI_LOGICAL"; FElem "flog" 1; FElem "flog" 2;
    FConst "MPI_REAL"; FElem "freal" 1; FElem "freal" 2;
    FConst "MPI_DOUBLE_PRECISION"; FElem "fdub" 1; FElem "fdub" 2;
    FConst "MPI_COMPLEX"; FElem "fcomp" 1; FElem "fcomp" 2;
    FWhole "ierror" ].
(** mpi.c 29-48: the parameters of mpi_init_fort. *)
Definition init_formals : list string :=
  [ "f_MPI_COMM_WORLD";
    "f_MPI_ANY_SOURCE"; "f_MPI_ANY_TAG";
    "f_MPI_PROC_NULL"; "f_MPI_ROOT";
    "f_MPI_COMM_NULL"; "f_MPI_REQUEST_NULL";
    "f_MPI_GROUP_NULL"; "f_MPI_GROUP_EMPTY";
    "f_MPI_UNDEFINED";
    "f_MPI_MAX_ERROR_STRING";
    "f_MPI_MAX_PROCESSOR_NAME";
    "f_MPI_STATUS_SIZE";
    "f_MPI_SOURCE"; "f_MPI_TAG"; "f_MPI_ERROR";
    "f_status"; "fsource"; "ftag"; "ferror";
    "f_MPI_INTEGER"; "fint1"; "fint2";
    "f_MPI_LOGICAL"; "flog1"; "flog2";
    "f_MPI_REAL"; "freal1"; "freal2";
    "f_MPI_DOUBLE_PRECISION"; "fdub1"; "fdub2";
    "f_MPI_COMPLEX"; "fcomp1"; "fcomp2";
    "ierror" ].
(** What a parameter of mpi_init_fort (mpi.c 29-48) is bound to. *)
Definition bound (formals : list string) (actuals : list fvar) (name : string) : option fvar :=
  match find (fun p => String.eqb (fst p) name) (combine formals actuals) with Some p => Some (snd p) | None => None end.
(** The value of a constant of mpif.h 7-344, by name. *)
Definition header_value (name : string) : Z :=
  match find (fun p => String.eqb (fst p) name) mpif_h with Some p => snd p | None => 0 end.
(** mpi.c 74-119: the macros read *f_<name>, and the distance of the two pointers named in the verify_size lines (mpi.c 141-151). *)
Definition read_const (name : string) : Z :=
  match bound init_formals init_actuals ("f_" ++ name) with Some (FConst n) => header_value n | _ => 0 end.
(** mpi.c 141-151: the two pointers named in the verify_size line of a type. *)
Definition pointers (name : string) : string * string :=
  if String.eqb name "MPI_INTEGER" then ("fint1", "fint2")
  else if String.eqb name "MPI_LOGICAL" then ("flog1", "flog2")
  else if String.eqb name "MPI_REAL" then ("freal1", "freal2")
  else if String.eqb name "MPI_DOUBLE_PRECISION" then ("fdub1", "fdub2")
  else ("fcomp1", "fcomp2").
(** Where an element is: [base] and [elem] give the address of an array and the size of its elements (fort.F90 15-20). *)
Definition address (base elem : string -> Z) (v : option fvar) : Z :=
  match v with
  | Some (FElem a i) => base a + (i - 1) * elem a
  | Some (FElemAt a n) => base a + (header_value n - 1) * elem a
  | Some (FWhole a) => base a
  | _ => 0
  end.
(** mpi.c 97-98: the distance of the two pointers. *)
Definition measure (base elem : string -> Z) (name : string) : Z :=
  address base elem (bound init_formals init_actuals (snd (pointers name))) -
  address base elem (bound init_formals init_actuals (fst (pointers name))).

Section FinitModel.
Variable c : cfg.
(** fort.F90 10-50: MPI_INIT; the result is ierror, the last parameter, set to what MPI_Init returns (mpi.c 54). *)
Definition MPI_INIT_f (base elem : string -> Z) : M Z := mpi_init_fort c read_const (measure base elem).
(** fort.F90 1-8: MPI_INIT_THREAD; provided and ierror. *)
Definition MPI_INIT_THREAD_f (base elem : string -> Z) (required : Z) : M (Z * Z) :=
  let provided := required in
  let* ierror := MPI_INIT_f base elem in
  ret (provided, ierror).
End FinitModel.

(** mpif.h 141-151: the common block /MPISERIAL/; variables in order with their length in INTEGERs. *)
Definition common_block : list (string * Z) := [("MPI_STATUS_IGNORE", 4); ("MPI_STATUSES_IGNORE", 4 * 1); ("MPI_IN_PLACE", 1)].
(** mpif.h 141-151: the address of a variable of the block, which begins at [at_]; INTEGERs have 4 bytes. *)
Fixpoint in_block (at_ : Z) (l : list (string * Z)) (name : string) : Z :=
  match l with
  | [] => 0
  | (n, len) :: r => if String.eqb n name then at_ else in_block (at_ + 4 * len) r name
  end.
(** fort.F90 66: the call of mpi_save_fort_pointers; mpi.c 356: its parameters. *)
Definition save_actuals : list string := ["MPI_STATUS_IGNORE"; "MPI_STATUSES_IGNORE"; "MPI_IN_PLACE"].
(** mpi.c 356: the parameters of mpi_save_fort_pointers. *)
Definition save_formals : list string := ["status"; "statuses"; "in_place"].
(** fort.F90 66, mpi.c 356: the address passed for a parameter. *)
Definition passed (at_ : Z) (name : string) : Z :=
  match find (fun p => String.eqb (fst p) name) (combine save_formals save_actuals) with
  | Some p => in_block at_ common_block (snd p) | None => 0 end.
(** mpi.c 356-361: mpi_save_fort_pointers. *)
Definition save_fort_pointers (at_ : Z) : fort := mkFort (passed at_ "status") (passed at_ "statuses") (passed at_ "in_place").
(** mpi.c 12-14: the three variables are static, so NULL at program start; mpi.c 161-191: every MPI_Init (also through
    MPI_Init_thread) that gets as far as 185 sets them; nothing else does. *)
Definition no_fort : fort := mkFort 0 0 0.
(** The saved addresses (mpi.c 12-14) after the calls [ks]; mpi.c 158-189 sets them. *)
Fixpoint fort_after (at_ : Z) (ks : list call) (f : fort) : fort :=
  match ks with
  | [] => f
  | k :: r => fort_after at_ r (match k with KInit | KInitThread _ => save_fort_pointers at_ | _ => f end)
  end.
