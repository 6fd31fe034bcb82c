(** C118 and C119: the text of the headers. *)
From Verif Require Import Base HeaderModel LinkModel NameModel TextModel TextSpec TextFacts.

(** C118, full statement: a Fortran program in free form and one in fixed form can include mpif.h; both get the same declarations, every name has one type
    given before its value, and the constants are those of C78; what module mpi offers besides is in mpif.h as well. *)
(** In free form mpif.h can be read, and the constants are those of [HeaderModel]. *)
Theorem C118_free_partial :
  exists l h, free text_mpif_h = Some l /\ meaning start l = Some h /\ integers_of h = HeaderModel.mpif_h /\
    kinds_of h = [("MPI_OFFSET_KIND", 13)]%string /\ h_others h = ["MPI_WTIME"]%string /\
    h_common h = [("MPISERIAL", ["MPI_STATUS_IGNORE"; "MPI_STATUSES_IGNORE"; "MPI_IN_PLACE"])]%string /\ h_saved h = ["MPISERIAL"]%string.
Proof. exact C118_free_lemma. Qed.
Print Assumptions C118_free_partial.
(** In whatever header has a meaning each name has one type, each constant is an integer with one value, and no constant is in a common block. *)
Theorem C118_meaning : forall l h, meaning start l = Some h -> sound h.
Proof. exact C118_meaning_lemma. Qed.
Print Assumptions C118_meaning.
(** In fixed form none of its statements is one, so no program in fixed form can include it. *)
Theorem C118_fixed_refuted :
  (forall before after, fixed (before ++ text_mpif_h ++ after) = None) /\
  forall s t ts, In s text_mpif_h -> free_line s = Some (t :: ts) -> fixed_line s = Wrong.
Proof. exact (conj C118_fixed_lemma C118_lines_lemma). Qed.
Print Assumptions C118_fixed_refuted.
(** MPI_ADDRESS_KIND is in the module and not in mpif.h. *)
Theorem C118_kind_refuted :
  (exists s ts, In s text_mpif_F90 /\ free_line s = Some ts /\ In (W "MPI_ADDRESS_KIND") ts) /\
  forall s ts, In s text_mpif_h -> free_line s = Some ts -> ~ In (W "MPI_ADDRESS_KIND") ts.
Proof. exact C118_kind_lemma. Qed.
Print Assumptions C118_kind_refuted.
(** The same statements from column 7 on can be read in both forms. *)
Example C118_ex_moved : fixed (map moved_line text_mpif_h) = free text_mpif_h /\ free (map moved_line ["parameter (x=1)"; "! c"]%string) = free ["PARAMETER ( X = 1 ) ! y"]%string.
Proof. split; vm_compute; reflexivity. Qed.
(** A continued statement, and one that is lost beyond column 72. *)
Example C118_ex_fixed :
  fixed ["C comment"; "      INTEGER X,"; "     &Y"; "  ! comment"; "      PARAMETER (X=-1)"]%string = Some [Integer [("X", []); ("Y", [])]; Constant [("X", Num (-1))]]%string /\
  fixed ["     ! in column 6"]%string = None /\ fixed ["  INTEGER X"]%string = None /\
  option_map (meaning start) (free ["integer x"; "parameter (x=1)"; "parameter (x=2)"]%string) = Some None /\
  option_map (meaning start) (free ["parameter (x=1)"; "integer x"]%string) = Some None.
Proof. do 4 (split; [vm_compute; reflexivity|]). vm_compute. reflexivity. Qed.

(** C119, full statement: mpi.h can be included by C programs of every standard of C.  It gives them the constants of C78, the declarations of C105 and
    the names of C116, each once, and a structure of a status whose members are at the places mpif.h names; and every macro is one operand in
    whatever expression it is used. *)
Theorem C119_reads_partial :
  exists h, read_c true text_mpi_h = Some h /\ c_guard h = "_MPI_H_"%string /\
    (forall n v, In (n, v) (numbers_of h) <-> In (n, v) HeaderModel.mpi_h) /\
    pointers_of h = [("MPI_IN_PLACE", "void", -1); ("MPI_STATUS_IGNORE", "MPI_Status", 0); ("MPI_STATUSES_IGNORE", "MPI_Status", 0)]%string /\
    routines_of h = map (fun d => (symbol SAME (d_name d), d_ret d, d_params d)) (filter (fun d => String.eqb (d_file d) "mpi.h") declarations) /\
    incl typedefs (aliases_of h) /\
    NoDup (map fst (c_macros h) ++ map decl_name (c_decls h)).
Proof. exact C119_reads_lemma. Qed.
Print Assumptions C119_reads_partial.
(** The macros and the types are those of the table of C116. *)
Theorem C119_names : forall h, read_c true text_mpi_h = Some h ->
  map fst (c_macros h) = flat_map (fun r => match r_item r with Macro n _ => [n] | _ => [] end) t_mpi_h /\
  map decl_name (filter (fun d => match d with Routine _ _ _ => false | _ => true end) (c_decls h)) =
  flat_map (fun r => match r_item r with Def n => if String.prefix "." n then [] else [n] | _ => [] end) t_mpi_h.
Proof. exact C119_names_lemma. Qed.
Print Assumptions C119_names.
(** A status is as many integers as mpif.h says, and its members are where mpif.h says. *)
Theorem C119_status : forall h l hf, read_c true text_mpi_h = Some h -> free text_mpif_h = Some l -> meaning start l = Some hf ->
  In ("MPI_STATUS_SIZE"%string, Z.of_nat (length (members_of h "MPI_Status"))) (integers_of hf) /\
  (forall n t, In (n, t) (members_of h "MPI_Status") -> t = ("int"%string, 0%nat) \/ t = ("MPI_Status_int"%string, 0%nat) /\ In ("MPI_Status_int"%string, "int"%string) (aliases_of h)) /\
  forall n, In n ["MPI_SOURCE"; "MPI_TAG"; "MPI_ERROR"]%string ->
    exists i t, nth_error (members_of h "MPI_Status") i = Some (n, t) /\ In (n, Z.of_nat i + 1) (integers_of hf).
Proof. exact C119_status_lemma. Qed.
Print Assumptions C119_status.
(** A constant in both texts has one value. *)
Theorem C119_agree : forall h l hf, read_c true text_mpi_h = Some h -> free text_mpif_h = Some l -> meaning start l = Some hf ->
  forall n v w, In (n, v) (numbers_of h) -> In (n, w) (integers_of hf) -> v = w.
Proof. exact C119_agree_lemma. Qed.
Print Assumptions C119_agree.
(** Of the macros only MPI_IN_PLACE, a cast without parentheses around it, is not one operand. *)
Theorem C119_operands_refuted : forall h n body, read_c true text_mpi_h = Some h -> In (n, body) (c_macros h) -> (one_operand body = false <-> n = "MPI_IN_PLACE"%string).
Proof. exact C119_operands_lemma. Qed.
Print Assumptions C119_operands_refuted.
(** Where two slashes do not begin a comment, as in C90, mpi.h cannot be read. *)
Theorem C119_c90_refuted : read_c false text_mpi_h = None.
Proof. exact C119_c90_lemma. Qed.
Print Assumptions C119_c90_refuted.
(** The same without the comments of this kind can be read in both. *)
Definition before_slashes (s : string) : string := match String.index 0 "//" s with Some n => String.substring 0 n s | None => s end.
Example C119_ex_slashes : read_c false (map before_slashes text_mpi_h) = read_c true text_mpi_h.
Proof. vm_compute. reflexivity. Qed.
(** A small header, and ones that are refused: no end of the guard, a type used before it is declared, a name declared twice. *)
Example C119_ex_small :
  read_c true ["#ifndef A"; "#define A"; "typedef int T; /* a"; "b */ #x"; "#endif"]%string = None /\
  option_map c_values (read_c true ["#ifndef A"; "#define A"; "typedef int T; /* a"; " b */"; "#define N (sizeof(T)/sizeof(int)) // c"; "#define P ((T *)-N)"; "extern T f(T *x, char y[]);"; "#endif"]%string)
    = Some [("N", Number 1); ("P", Pointer "T" (-1))]%string /\
  read_c true ["#ifndef A"; "#define A"; "extern T f(void);"; "typedef int T;"; "#endif"]%string = None /\
  read_c true ["#ifndef A"; "#define A"; "typedef int T;"; "typedef int T;"; "#endif"]%string = None /\
  read_c true ["#ifndef A"; "#define A"; "typedef int T;"]%string = None.
Proof. do 4 (split; [vm_compute; reflexivity|]). vm_compute. reflexivity. Qed.
