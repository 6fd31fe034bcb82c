(** What it means that every name is declared before it is used, that the files belong together, and that Fortran names are those of the compiler (C109, C110,
    C111).  Says nothing about how that is checked. *)
From Verif Require Import Base LinkModel LinkSpec BuildModel.
From Coq Require Import Ascii.
#[local] Open Scope string_scope.
#[local] Open Scope list_scope.

(** Text under an #ifdef is compiled if the macro is among those defined, [on] (e.g. recv.c 101). *)
Definition compiled (on : list string) (w : option string) : Prop := match w with None => True | Some x => In x on end.
(** A file includes a header, itself or through another header (e.g. send.c 1 and mpiP.h 14). *)
Inductive reaches : string -> string -> Prop :=
| re_itself f l h : In (f, l) includes -> In h l -> reaches f h
| re_through f g h : reaches f g -> reaches g h -> reaches f h.
(** The name has been declared before that line of the file: by a routine that begins there or earlier, by a prototype in the file, by a header of the library
    or by one of the C library (e.g. recv.c 81 and mpiP.h 106, recv.c 75 and 13, copy.c 36 and 26, recv.c 58 and mpiP.h 11). *)
Definition declared (on : list string) (file : string) (line : Z) (n : nm) : Prop :=
  (exists p, In p places /\ p_file p = file /\ p_name p = n /\ compiled on (p_when p) /\ p_first p <= line) \/
  (exists l d, In (file, l, d) prototypes_in /\ d_name d = n /\ l < line) \/
  (exists d, In d declarations /\ d_name d = n /\ reaches file (d_file d)) \/
  (exists s h l, n = C s /\ reaches file h /\ In (h, l) c_headers /\ In s l).
(** The three uses for which that is wrong: --enable-info and --enable-test-internal (recv.c 102, send.c 91, type.c 840; configure.ac 47-54). *)
Definition undeclared : list (string * use) :=
  [("recv.c", mkUse 102 (C "print_list") (Some "INFO")); ("send.c", mkUse 91 (C "print_list") (Some "INFO")); ("type.c", mkUse 840 (C "Pprint_typemap") None)].

(** The routine of the table of C105 and its place: same file and name, and the same names used outside of #ifdefs (e.g. recv.c 117-140). *)
Definition same (w : option string) (f : fn) (p : place) : Prop :=
  p_file p = fn_file f /\ p_name p = fn_name f /\ p_when p = w /\ forall n, In n (fn_calls f ++ fn_passes f) <-> exists u, In u (p_uses p) /\ u_when u = None /\ u_name u = n.

(** The macro without which a use is not compiled: that of its own #ifdef or that of its routine's (e.g. recv.c 101 and 145). *)
Definition needs (p : place) (u : use) (w : string) : Prop := u_when u = Some w \/ u_when u = None /\ p_when p = Some w.
(** The macros that ask for checks and messages (e.g. handles.c 261, send.c 77; configure.ac 47-63). *)
Definition watching : list string := ["INFO"; "DEBUG"; "HANDLE_INFO"; "CHECKS"; "TYPE_CHECKING"].
(** What they add: file, routine, what it uses, macro (comm.c 137, comm.c 138, copy.c 77, copy.c 78, handles.c 220, handles.c 221, handles.c 235, handles.c 236, handles.c 262, handles.c 289, handles.c 297, handles.c 298, list.c 297, list.c 298, probe.c 32, probe.c 33, recv.c 51, recv.c 52, recv.c 89, recv.c 102, recv.c 129, recv.c 130, recv.c 149, recv.c 156, recv.c 157, recv.c 159, recv.c 159, send.c 46, send.c 47, send.c 78, send.c 91, send.c 117, send.c 118). *)
Definition added : list (string * nm * nm * string) :=
  [("comm.c", C "MPI_Comm_dup", C "fflush", "INFO");
   ("comm.c", C "MPI_Comm_dup", C "fprintf", "INFO");
   ("copy.c", C "Pcopy_data2", C "printf", "TYPE_CHECKING");
   ("copy.c", C "Pcopy_data2", C "exit", "TYPE_CHECKING");
   ("handles.c", C "mpi_alloc_handle", C "fflush", "HANDLE_INFO");
   ("handles.c", C "mpi_alloc_handle", C "fprintf", "HANDLE_INFO");
   ("handles.c", C "verify_handle", C "fprintf", "CHECKS");
   ("handles.c", C "verify_handle", C "abort", "CHECKS");
   ("handles.c", C "mpi_handle_to_ptr", C "verify_handle", "CHECKS");
   ("handles.c", C "mpi_free_handle", C "verify_handle", "CHECKS");
   ("handles.c", C "mpi_free_handle", C "fprintf", "CHECKS");
   ("handles.c", C "mpi_free_handle", C "abort", "CHECKS");
   ("list.c", C "AP_list_delete_item", C "fprintf", "CHECKS");
   ("list.c", C "AP_list_delete_item", C "abort", "CHECKS");
   ("probe.c", C "MPI_Iprobe", C "fflush", "INFO");
   ("probe.c", C "MPI_Iprobe", C "fprintf", "INFO");
   ("recv.c", C "MPI_Irecv", C "fflush", "INFO");
   ("recv.c", C "MPI_Irecv", C "fprintf", "INFO");
   ("recv.c", C "MPI_Irecv", C "printf", "DEBUG");
   ("recv.c", C "MPI_Irecv", C "print_list", "INFO");
   ("recv.c", C "MPI_Recv", C "fflush", "INFO");
   ("recv.c", C "MPI_Recv", C "fprintf", "INFO");
   ("recv.c", C "print_item", C "fprintf", "INFO");
   ("recv.c", C "print_list", C "fflush", "INFO");
   ("recv.c", C "print_list", C "fprintf", "INFO");
   ("recv.c", C "print_list", C "AP_list_apply", "INFO");
   ("recv.c", C "print_list", C "print_item", "INFO");
   ("send.c", C "MPI_Isend", C "fflush", "INFO");
   ("send.c", C "MPI_Isend", C "fprintf", "INFO");
   ("send.c", C "MPI_Isend", C "printf", "DEBUG");
   ("send.c", C "MPI_Isend", C "print_list", "INFO");
   ("send.c", C "MPI_Send", C "fflush", "INFO");
   ("send.c", C "MPI_Send", C "fprintf", "INFO")].

(** The type of a routine that can be passed to AP_list_search_func or AP_list_apply (list.c 447 and 564). *)
Definition can_be_passed (f : fn) : Prop := fn_ret f = ("int", 0%nat) /\ fn_params f = [("void", 1%nat); ("void", 1%nat)].

(** What is read for a file, header by header, when a guarded one that was read before is skipped (C11 6.10.2; e.g. handles.c 8-9): [reads seen f l]: [l] is read for [f]
    if [seen] was read before. *)
Inductive reads : list string -> string -> list string -> Prop :=
| rd_leaf seen f : (forall l, ~ In (f, l) includes) -> reads seen f []
| rd_file seen f hs l : In (f, hs) includes -> reads_all seen hs l -> reads seen f l
with reads_all : list string -> list string -> list string -> Prop :=
| ra_none seen : reads_all seen [] []
| ra_skip seen h hs l : In h seen -> In h guarded -> reads_all seen hs l -> reads_all seen (h :: hs) l
| ra_read seen h hs l l' : ~ (In h seen /\ In h guarded) -> reads (h :: seen) h l -> reads_all (l ++ h :: seen) hs l' -> reads_all seen (h :: hs) (h :: l ++ l').
(** Those of them that are headers of the library (mpiP.h 14-15). *)
Definition of_library (h : string) : bool := existsb (fun p => String.eqb (fst p) h) includes.

(** A name has an underscore in it (mpiP.h 45-49). *)
Fixpoint has_underscore (s : string) : bool := match s with EmptyString => false | String c s => Ascii.eqb c "_" || has_underscore s end.
(** One letter, and a name, in upper case; with [lower] of LinkSpec, the names of Fortran (e.g. mpi.c 224). *)
Definition up (c : ascii) : ascii := let k := nat_of_ascii c in if (Nat.leb 97 k && Nat.leb k 122)%bool then ascii_of_nat (k - 32) else c.
(** A name in upper case (mpi.c 224). *)
Fixpoint upper (s : string) : string := match s with EmptyString => EmptyString | String c s => String (up c) (upper s) end.
(** The name a Fortran compiler makes, by the way that configure finds out (configure 4937-4948) or that one defines by hand (mpiP.h 39-55). *)
Definition fortran_name (sc : scheme) (name : string) : string :=
  (if sc_upper sc then upper name else name) ++ (if sc_under sc then "_" else "") ++ (if sc_extra sc && has_underscore name then "_" else "").
(** The four ways that can be defined by hand (mpiP.h 56-63). *)
Definition by_hand (m : mangling) : scheme :=
  match m with
  | ONE_UNDERSCORE => mkScheme false true false
  | TWO_UNDERSCORES => mkScheme false true true
  | SAME => mkScheme false false false
  | CAPS => mkScheme true false false
  end.
(** Two routines whose names clash when config.h is used: as [clash] of LinkSpec (e.g. type.c 767 and 779). *)
Definition clash_config (sc : scheme) (f g : fn) : Prop :=
  f <> g /\ config_symbol sc (fn_name f) = config_symbol sc (fn_name g) /\ (fn_static f = false /\ fn_static g = false \/ fn_file f = fn_file g).
