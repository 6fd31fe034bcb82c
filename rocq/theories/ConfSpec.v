(** What it means that README names what is there (C113), that configure does what its options say (C114), and that make builds the library (C115).  Says nothing about how that is
    checked. *)
From Verif Require Import Base LinkModel LinkSpec ConfModel.
From Coq Require Import Ascii DecimalString.
#[local] Open Scope string_scope.
#[local] Open Scope list_scope.

(** ** C113 *)
(** There is a routine of C with that name, but for the case of its letters, that other files can call (e.g. mpi.c 232). *)
Definition in_C (n : string) : Prop := exists f s, In f library /\ fn_name f = C s /\ lower s = n /\ fn_static f = false.
(** mpi.h declares it (e.g. mpi.h 255). *)
Definition in_mpi_h (n : string) : Prop := exists d s, In d declarations /\ d_file d = "mpi.h" /\ d_name d = C s /\ lower s = n.
(** Fortran can call it (e.g. mpi.c 224). *)
Definition in_Fortran (n : string) : Prop := exists f up, In f library /\ fn_name f = F n up /\ fn_static f = false.
(** The names in README that no routine has: one is misspelt, the other is only declared (README 161 and 168; mpi.h 431). *)
Definition no_routine : list string := ["mpi_type_contigious"; "mpi_type_dup"].
(** Those that mpi.h does not declare (README 72, 160 and 161). *)
Definition not_declared : list string := ["mpi_init_thread"; "mpi_info_free"; "mpi_type_contigious"].
(** Those that Fortran programs cannot call (README 76, 90-92, 100-101, 106, 109-110, 133-134, 161 and 168). *)
Definition not_in_Fortran : list string :=
  ["mpi_errhandler_set"; "mpi_comm_new"; "mpi_comm_f2c"; "mpi_comm_c2f"; "mpi_group_f2c"; "mpi_group_c2f"; "mpi_intercomm_merge"; "mpi_op_f2c"; "mpi_op_c2f"; "mpi_request_f2c";
   "mpi_request_c2f"; "mpi_type_contigious"; "mpi_type_dup"].
(** Routines README does not name (cart.c 57, collective.c 185, mpi.c 336, type.c 773, 786, 454, 585 and 656). *)
Definition not_listed : list string :=
  ["mpi_cart_get"; "mpi_allgatherv"; "mpi_get_version"; "mpi_get_address"; "mpi_address"; "mpi_type_contiguous"; "mpi_type_hindexed"; "mpi_type_create_indexed_block"].
(** README names what there is: a routine of C that mpi.h declares (README 64). *)
Definition C113_full : Prop := forall n, In n listed -> in_C n /\ in_mpi_h n.

(** ** C114 *)
(** Two characters configure does not tell apart in the name of an option (configure 868). *)
Definition joint (c : ascii) : Prop := In c ["-"; "+"; "."; "_"]%char.
(** The same name to configure (configure 868 and 894). *)
Inductive alike : string -> string -> Prop :=
| al_end : alike "" ""
| al_same c s t : alike s t -> alike (String c s) (String c t)
| al_joint c d s t : joint c -> joint d -> alike s t -> alike (String c s) (String d t).
(** The option is the one for [name] (configure 863 and 889). *)
Definition about (o : opt) (name : string) : Prop := alike (name_of o) name.
(** The last option for [name] on the command line is [o] (configure 876 and 902). *)
Definition last_said (l : list opt) (name : string) (o : opt) : Prop :=
  exists l1 l2, l = l1 ++ o :: l2 /\ about o name /\ forall p, In p l2 -> ~ about p name.
(** There is none (configure 5474). *)
Definition never_said (l : list opt) (name : string) : Prop := forall p, In p l -> ~ about p name.
(** There is one (configure 5474). *)
Definition said (l : list opt) (name : string) : Prop := exists p, In p l /\ about p name.
(** A number in decimal digits (README 49). *)
Definition decimal (n : N) : string := NilZero.string_of_uint (N.to_uint n).
(** The size the command line asks for (README 43-49). *)
Definition size_asked (l : list opt) (name : string) (default n : Z) : Prop :=
  never_said l name /\ n = default \/ exists x k, last_said l name (Enable x (Some (decimal k))) /\ n = Z.of_N k.
(** The feature was asked for (configure.ac 37-55). *)
Definition wanted (l : list opt) (name : string) : Prop := exists x a, last_said l name (Enable x a) /\ a <> Some "no".
(** The options and their macros (configure.ac 37-55). *)
Definition option_macros : list (string * string) :=
  [("test-internal", "TEST_INTERNAL"); ("info", "INFO"); ("fort-real", "CONFIG_FORT_REAL"); ("fort-double", "CONFIG_FORT_DOUBLE"); ("type-checking", "TYPE_CHECKING")].
(** config.h defines a macro (configure 5474-5515). *)
Definition defines (l : list opt) (m : string) : Prop := exists v, In (m, v) (config_h l).
(** A macro is defined exactly if its feature was asked for. *)
Definition C114_full : Prop := forall l name m, In (name, m) option_macros -> (defines l m <-> wanted l name).
(** Reading [f] reads [h], directly or through other files (e.g. type.h 7 and mpiP.h 30). *)
Inductive brings : string -> string -> Prop :=
| br_line f k h : In (f, k, h) include_lines -> brings f h
| br_through f k g h : In (f, k, g) include_lines -> brings g h -> brings f h.
(** config.h has been read before line [n] of [f] (e.g. comm.c 2 and 136). *)
Definition config_before (f : string) (n : Z) : Prop :=
  exists k h, In (f, k, h) include_lines /\ k < n /\ (h = "config.h" \/ brings h "config.h").
(** ** C109 *)
(** Line [n] of [f] is compiled only if [w] is defined (e.g. comm.c 136-139). *)
Definition only_with (f : string) (n : Z) (w : string) : Prop := exists a b, In (f, w, a, b) regions /\ a < n < b.

(** ** C115 *)
(** What is needed for "all-am" (Makefile.in 875). *)
Inductive needed : string -> Prop :=
| ne_all : needed "all-am"
| ne_rule r x : needed (ru_target r) -> In r rules -> In x (ru_needs r) -> needed x.
(** The step for a thing: look whether it is there if nothing makes it, else run its rule (Makefile.in 875). *)
Definition step_for (x : string) (s : step) : Prop :=
  ((exists r, In r rules /\ ru_target r = x) /\ s = Run x) \/ ((forall r, In r rules -> ru_target r <> x) /\ s = Look x).
(** One step comes before another (Makefile.in 875). *)
Definition before (a b : step) (tr : list step) : Prop := exists l1 l2 l3, tr = l1 ++ a :: l2 ++ b :: l3.
(** What make may do, with any number of jobs at a time ([Run t]: the end of the commands for [t]): every step once, and a rule only after the steps for what it needs (GNU make -j). *)
Record proper (tr : list step) : Prop := {
  pr_once : NoDup tr;
  pr_steps : forall s, In s tr <-> exists x, needed x /\ step_for x s;
  pr_order : forall r x s, In r rules -> needed (ru_target r) -> In x (ru_needs r) -> step_for x s -> before s (Run (ru_target r)) tr
}.
(** The files that must be there: the sources, the headers to be installed and what configure made (Makefile.in 875 and 143-151). *)
Definition ready (there : list string) : Prop :=
  forall f, In f ["Makefile"; "config.h"; "mpi.h"; "mpif.h"] \/ In f BuildModel.sources -> In f there.
(** The files of the repository with what configure made (Makefile.in 875). *)
Definition files_there : list string := ["Makefile"; "config.h"] ++ BuildModel.files.
(** It worked: nothing was missing, and the library and the module are there (Makefile.am 1-6). *)
Definition built (tr : list step) (there : list string) : Prop :=
  exists l, perform tr there = inl l /\ In "libmpi-serial.a" l /\ In "mpi.mod" l /\ In "mpi.h" l /\ In "mpif.h" l.
(** make builds the library with any number of jobs (README 55). *)
Definition C115_full : Prop := forall tr there, proper tr -> ready there -> built tr there.
(** A file is found in one of the directories (Makefile.in 165). *)
Definition found (contents : dir -> list string) (ds : list dir) (h : string) : Prop := exists d, In d ds /\ In h (contents d).
