(** README, configure and make as text: the calls README names, the options configure takes, and what make does (C113, C114, C115).

    The files are read as text.  Of configure only the options of mpi-serial itself are modelled; of make only the rules that build the library. *)
From Verif Require Import Base TypeModel LinkModel BuildModel.
From Coq Require Import Ascii DecimalString.
#[local] Open Scope string_scope.
#[local] Open Scope list_scope.

(** ** README *)
(** The calls README says are supported, in order; each line cites its own (README 70-174). *)
Definition listed : list string := [
  "mpi_init"; (* README 71 *)
  "mpi_init_thread"; (* README 72 *)
  "mpi_finalize"; (* README 73 *)
  "mpi_abort"; (* README 74 *)
  "mpi_error_string"; (* README 75 *)
  "mpi_errhandler_set"; (* README 76 *)
  "mpi_initialized"; (* README 77 *)
  "mpi_get_processor_name"; (* README 78 *)
  "mpi_get_library_version"; (* README 79 *)
  "mpi_wtime"; (* README 80 *)
  "mpi_comm_free"; (* README 83 *)
  "mpi_comm_size"; (* README 84 *)
  "mpi_comm_rank"; (* README 85 *)
  "mpi_comm_dup"; (* README 86 *)
  "mpi_comm_create"; (* README 87 *)
  "mpi_comm_split"; (* README 88 *)
  "mpi_comm_group"; (* README 89 *)
  "mpi_comm_new"; (* README 90 *)
  "mpi_comm_f2c"; (* README 91 *)
  "mpi_comm_c2f"; (* README 92 *)
  "mpi_group_incl"; (* README 93 *)
  "mpi_group_range_incl"; (* README 94 *)
  "mpi_group_union"; (* README 95 *)
  "mpi_group_intersection"; (* README 96 *)
  "mpi_group_difference"; (* README 97 *)
  "mpi_group_translate_ranks"; (* README 98 *)
  "mpi_group_free"; (* README 99 *)
  "mpi_group_f2c"; (* README 100 *)
  "mpi_group_c2f"; (* README 101 *)
  "mpi_cart_create"; (* README 102 *)
  "mpi_cart_coords"; (* README 103 *)
  "mpi_dims_create"; (* README 104 *)
  "mpi_intercomm_create"; (* README 105 *)
  "mpi_intercomm_merge"; (* README 106 *)
  "mpi_op_create"; (* README 107 *)
  "mpi_op_free"; (* README 108 *)
  "mpi_op_f2c"; (* README 109 *)
  "mpi_op_c2f"; (* README 110 *)
  "mpi_irecv"; (* README 113 *)
  "mpi_recv"; (* README 114 *)
  "mpi_test"; (* README 115 *)
  "mpi_testany"; (* README 116 *)
  "mpi_testall"; (* README 117 *)
  "mpi_testsome"; (* README 118 *)
  "mpi_wait"; (* README 119 *)
  "mpi_waitany"; (* README 120 *)
  "mpi_waitall"; (* README 121 *)
  "mpi_waitsome"; (* README 122 *)
  "mpi_isend"; (* README 123 *)
  "mpi_irecv"; (* README 124 *)
  "mpi_send"; (* README 125 *)
  "mpi_ssend"; (* README 126 *)
  "mpi_rsend"; (* README 127 *)
  "mpi_irsend"; (* README 128 *)
  "mpi_sendrecv"; (* README 129 *)
  "mpi_iprobe"; (* README 130 *)
  "mpi_probe"; (* README 131 *)
  "mpi_request_free"; (* README 132 *)
  "mpi_request_f2c"; (* README 133 *)
  "mpi_request_c2f"; (* README 134 *)
  "mpi_barrier"; (* README 137 *)
  "mpi_bcast"; (* README 138 *)
  "mpi_gather"; (* README 139 *)
  "mpi_gatherv"; (* README 140 *)
  "mpi_allgather"; (* README 141 *)
  "mpi_scatter"; (* README 142 *)
  "mpi_scatterv"; (* README 143 *)
  "mpi_reduce"; (* README 144 *)
  "mpi_allreduce"; (* README 145 *)
  "mpi_reduce_scatter"; (* README 146 *)
  "mpi_scan"; (* README 147 *)
  "mpi_alltoall"; (* README 148 *)
  "mpi_alltoallv"; (* README 149 *)
  "mpi_alltoallw"; (* README 150 *)
  "mpi_get_count"; (* README 153 *)
  "mpi_get_elements"; (* README 154 *)
  "mpi_pack"; (* README 155 *)
  "mpi_pack_size"; (* README 156 *)
  "mpi_unpack"; (* README 157 *)
  "mpi_info_create"; (* README 158 *)
  "mpi_info_set"; (* README 159 *)
  "mpi_info_free"; (* README 160 *)
  "mpi_type_contigious"; (* README 161 *)
  "mpi_type_vector"; (* README 162 *)
  "mpi_type_hvector"; (* README 163 *)
  "mpi_type_create_hvector"; (* README 164 *)
  "mpi_type_indexed"; (* README 165 *)
  "mpi_type_size"; (* README 166 *)
  "mpi_type_struct"; (* README 167 *)
  "mpi_type_dup"; (* README 168 *)
  "mpi_type_extent"; (* README 169 *)
  "mpi_type_commit"; (* README 170 *)
  "mpi_type_free"; (* README 171 *)
  "mpi_type_lb"; (* README 172 *)
  "mpi_type_ub" (* README 173 *)
].
(** What README says can be made: "make" (which is "make all", Makefile.in 406), "make tests", "make examples" and "make clean" (README 34-35 and 55-59). *)
Definition named_targets : list string := ["all"; "tests"; "examples"; "clean"].
(** The targets of the rules of Makefile.in whose names are written out, but for those beginning with a dot (Makefile.in 406-1021). *)
Definition plain_targets : list string := [
  "all"; "am--refresh"; "Makefile"; "config.h"; "stamp-h1"; "distclean-hdr"; "install-libLIBRARIES"; "uninstall-libLIBRARIES"; (* Makefile.in 406-482 *)
  "clean-libLIBRARIES"; "libmpi-serial.a"; "mostlyclean-compile"; "distclean-compile"; "am--depfiles"; "install-mpi_serial_includeHEADERS"; "uninstall-mpi_serial_includeHEADERS"; "ID"; (* Makefile.in 488-605 *)
  "tags"; "TAGS"; "tags-am"; "ctags"; "CTAGS"; "ctags-am"; "GTAGS"; "cscope"; (* Makefile.in 607-651 *)
  "clean-cscope"; "cscope.files"; "cscopelist"; "cscopelist-am"; "distclean-tags"; "distdir"; "distdir-am"; "dist-gzip"; (* Makefile.in 654-743 *)
  "dist-bzip2"; "dist-lzip"; "dist-xz"; "dist-zstd"; "dist-tarZ"; "dist-shar"; "dist-zip"; "dist"; (* Makefile.in 747-782 *)
  "dist-all"; "distcheck"; "distuninstallcheck"; "distcleancheck"; "check-am"; "check"; "all-am"; "installdirs"; (* Makefile.in 782-876 *)
  "installdirs-am"; "install"; "install-exec"; "install-data"; "uninstall"; "install-am"; "installcheck"; "install-strip"; (* Makefile.in 877-890 *)
  "mostlyclean-generic"; "clean-generic"; "distclean-generic"; "maintainer-clean-generic"; "clean"; "clean-am"; "distclean"; "distclean-am"; (* Makefile.in 900-939 *)
  "dvi"; "dvi-am"; "html"; "html-am"; "info"; "info-am"; "install-data-am"; "install-dvi"; (* Makefile.in 942-956 *)
  "install-dvi-am"; "install-exec-am"; "install-html"; "install-html-am"; "install-info"; "install-info-am"; "install-man"; "install-pdf"; (* Makefile.in 958-972 *)
  "install-pdf-am"; "install-ps"; "install-ps-am"; "installcheck-am"; "maintainer-clean"; "maintainer-clean-am"; "mostlyclean"; "mostlyclean-am"; (* Makefile.in 974-1011 *)
  "pdf"; "pdf-am"; "ps"; "ps-am"; "uninstall-am" (* Makefile.in 1013-1021 *)
].
(** The targets of the rule for $(am__recursive_targets) (Makefile.in 577, with Makefile.in 205-212, 219-220 and 221-224; nothing defines $(am__extra_recursive_targets)). *)
Definition recursive_targets : list string := [
  "all-recursive"; "check-recursive"; "cscopelist-recursive"; "ctags-recursive"; "dvi-recursive"; "html-recursive"; "info-recursive";
  "install-data-recursive"; "install-dvi-recursive"; "install-exec-recursive"; "install-html-recursive"; "install-info-recursive"; "install-pdf-recursive"; "install-ps-recursive";
  "install-recursive"; "installcheck-recursive"; "installdirs-recursive"; "pdf-recursive"; "ps-recursive"; "tags-recursive"; "uninstall-recursive";
  "mostlyclean-recursive"; "clean-recursive"; "distclean-recursive"; "maintainer-clean-recursive"
].
(** The other rules are for the files configure and the makefile are made from and for the dependencies of the C files (Makefile.in 413, 436, 439, 441, 443, 452 and 524): $(srcdir)/Makefile.in,
    $(top_builddir)/config.status, $(top_srcdir)/configure, $(ACLOCAL_M4), $(am__aclocal_m4_deps), $(srcdir)/config.h.in and $(am__depfiles_remade).  They are not in this list. *)
Definition targets : list string := plain_targets ++ recursive_targets.
(** What "make T" comes to if T is none of the targets left out above: its rule; or nothing, if there is a file or directory of that name; or an error (GNU make; Makefile.in 577). *)
Inductive asked := Its_rule | Nothing_done | No_rule.
(** The same: [there] are the files and directories there are (Makefile.in 405-406). *)
Definition make_asked (there : list string) (t : string) : asked :=
  if existsb (String.eqb t) targets then Its_rule else if existsb (String.eqb t) there then Nothing_done else No_rule.

(** ** configure *)
(** An option on the command line: --enable-NAME, --enable-NAME=ARG or --disable-NAME (configure 862-876 and 888-902).  Other options, and variables of the
    environment with names like enable_info, are left out. *)
Inductive opt := Enable (name : string) (arg : option string) | Disable (name : string).
(** The name in the option (configure 863 and 889). *)
Definition name_of (o : opt) : string := match o with Enable n _ => n | Disable n => n end.
(** What the option sets its variable to (configure 819-821, 876 and 902). *)
Definition value_of (o : opt) : string := match o with Enable _ (Some a) => a | Enable _ None => "yes" | Disable _ => "no" end.
(** sed 's/[-+.]/_/g' (configure 868 and 894). *)
Fixpoint shell_name (s : string) : string :=
  match s with
  | EmptyString => EmptyString
  | String c s => String (if existsb (Ascii.eqb c) ["-"; "+"; "."]%char then "_"%char else c) (shell_name s)
  end.
(** The variable enable_V after the options, if it is set (configure 876 and 902): the last option decides. *)
Fixpoint variable (l : list opt) (v : string) : option string :=
  match l with
  | [] => None
  | o :: l => match variable l v with Some x => Some x | None => if String.eqb (shell_name (name_of o)) v then Some (value_of o) else None end
  end.
(** The names and values config.h defines because of options (configure 5474-5515; configure.ac 37-55). *)
Definition config_h (l : list opt) : list (string * string) :=
  (match variable l "test_internal" with Some _ => [("TEST_INTERNAL", "")] | None => [] end) ++
  (match variable l "info" with Some _ => [("INFO", "")] | None => [] end) ++
  (match variable l "fort_real" with Some x => [("CONFIG_FORT_REAL", x)] | None => [] end) ++
  (match variable l "fort_double" with Some x => [("CONFIG_FORT_DOUBLE", x)] | None => [] end) ++
  (match variable l "type_checking" with Some _ => [("TYPE_CHECKING", "")] | None => [] end).
(** The value of a macro in config.h (type.h 100 and 106). *)
Definition macro (l : list opt) (m : string) : option string := option_map snd (find (fun d => String.eqb (fst d) m) (config_h l)).
(** The number a text is as a constant in C (type.h 101 and 107).  Only decimal constants without leading zeros are modelled; other texts can be constants too, e.g. 0x10, but
    "yes" and "no" are not. *)
Definition number (s : string) : option Z :=
  match NilZero.uint_of_string s with
  | Some d => if String.eqb (NilZero.string_of_uint (N.to_uint (N.of_uint d))) s then Some (Z.of_N (N.of_uint d)) else None
  | None => None
  end.
(** FSIZE_REAL and FSIZE_DPRECISION (type.h 100-110). *)
Definition fsize (l : list opt) (m : string) (default : Z) : option Z := match macro l m with Some s => number s | None => Some default end.
(** The configuration the library is compiled with (type.h 100-110, copy.c 73), if the sizes are numbers. *)
Definition cfg_of (l : list opt) : option cfg :=
  match fsize l "CONFIG_FORT_REAL" 4, fsize l "CONFIG_FORT_DOUBLE" 8 with
  | Some r, Some d => Some (mkCfg r d (match macro l "TYPE_CHECKING" with Some _ => true | None => false end))
  | _, _ => None
  end.

(** The lines that include something, in the sources, the headers and the tests; each line cites its own (cart.c 1 to tests/ftest.F90 2).  Those under #ifdef HAVE_CONFIG_H count: the makefile
    defines it (Makefile.in 191 and 309; configure defines @DEFS@ so). *)
Definition include_lines : list (string * Z * string) := [
  ("cart.c", 1, "mpiP.h"); (* cart.c 1-1 *)
  ("collective.c", 2, "mpiP.h"); (* collective.c 2-2 *)
  ("comm.c", 2, "mpiP.h"); (* comm.c 2-2 *)
  ("copy.c", 8, "mpiP.h"); ("copy.c", 9, "type.h"); ("copy.c", 10, "string.h"); ("copy.c", 11, "stdio.h"); ("copy.c", 12, "stdlib.h"); ("copy.c", 13, "limits.h"); ("copy.c", 17, "config.h"); (* copy.c 8-17 *)
  ("error.c", 2, "mpiP.h"); (* error.c 2-2 *)
  ("getcount.c", 7, "type.h"); ("getcount.c", 8, "mpiP.h"); (* getcount.c 7-8 *)
  ("group.c", 2, "mpiP.h"); (* group.c 2-2 *)
  ("handles.c", 8, "mpiP.h"); ("handles.c", 9, "type.h"); (* handles.c 8-9 *)
  ("ic_merge.c", 2, "mpiP.h"); (* ic_merge.c 2-2 *)
  ("info.c", 2, "mpiP.h"); (* info.c 2-2 *)
  ("list.c", 8, "stdlib.h"); ("list.c", 9, "stdio.h"); ("list.c", 10, "listops.h"); ("list.c", 11, "listP.h"); (* list.c 8-11 *)
  ("mpi.c", 1, "mpiP.h"); ("mpi.c", 2, "mpi.h"); ("mpi.c", 3, "type.h"); (* mpi.c 1-3 *)
  ("op.c", 1, "mpi.h"); ("op.c", 2, "mpiP.h"); (* op.c 1-2 *)
  ("pack.c", 1, "stdio.h"); ("pack.c", 2, "stdlib.h"); ("pack.c", 3, "string.h"); ("pack.c", 4, "mpiP.h"); ("pack.c", 5, "type.h"); (* pack.c 1-5 *)
  ("probe.c", 2, "mpiP.h"); (* probe.c 2-2 *)
  ("recv.c", 2, "mpiP.h"); (* recv.c 2-2 *)
  ("req.c", 1, "mpiP.h"); (* req.c 1-1 *)
  ("send.c", 1, "mpiP.h"); (* send.c 1-1 *)
  ("time.c", 2, "sys/time.h"); ("time.c", 3, "time.h"); ("time.c", 6, "mpiP.h"); (* time.c 2-6 *)
  ("type.c", 7, "type.h"); ("type.c", 8, "mpiP.h"); ("type.c", 9, "stdlib.h"); ("type.c", 10, "stdio.h"); ("type.c", 11, "limits.h"); ("type.c", 14, "config.h"); (* type.c 7-14 *)
  ("type_const.c", 1, "type.h"); (* type_const.c 1-1 *)
  ("listops.h", 21, "list.h"); (* listops.h 21-21 *)
  ("mpiP.h", 9, "unistd.h"); ("mpiP.h", 10, "stdlib.h"); ("mpiP.h", 11, "stdio.h"); ("mpiP.h", 12, "string.h"); ("mpiP.h", 14, "listops.h"); ("mpiP.h", 15, "mpi.h"); ("mpiP.h", 30, "config.h"); (* mpiP.h 9-30 *)
  ("type.h", 7, "mpiP.h"); ("type.h", 11, "config.h"); (* type.h 7-11 *)
  ("mpif.F90", 2, "config.h"); (* mpif.F90 2-2 *)
  ("tests/ctest.c", 1, "mpi.h"); ("tests/ctest.c", 2, "stdio.h"); ("tests/ctest.c", 3, "stdlib.h"); ("tests/ctest.c", 6, "config.h"); ("tests/ctest.c", 10, "mpiP.h"); ("tests/ctest.c", 11, "type.h"); (* tests/ctest.c 1-11 *)
  ("tests/ctest_old.c", 2, "stdio.h"); ("tests/ctest_old.c", 3, "mpi.h"); (* tests/ctest_old.c 2-3 *)
  ("tests/ftest.F90", 2, "config.h") (* tests/ftest.F90 2-2 *)
].
(** The lines that ask whether one of the macros of config.h that come from options is defined (comm.c 136 to tests/ftest.F90 556). *)
Definition asking_lines : list (string * Z * string) := [
  ("comm.c", 136, "INFO"); (* comm.c 136-136 *)
  ("copy.c", 73, "TYPE_CHECKING"); (* copy.c 73-73 *)
  ("probe.c", 31, "INFO"); (* probe.c 31-31 *)
  ("recv.c", 50, "INFO"); ("recv.c", 101, "INFO"); ("recv.c", 128, "INFO"); ("recv.c", 145, "INFO"); (* recv.c 50-145 *)
  ("send.c", 45, "INFO"); ("send.c", 90, "INFO"); ("send.c", 116, "INFO"); (* send.c 45-116 *)
  ("type.c", 829, "TEST_INTERNAL"); (* type.c 829-829 *)
  ("type.h", 100, "CONFIG_FORT_REAL"); ("type.h", 106, "CONFIG_FORT_DOUBLE"); (* type.h 100-106 *)
  ("tests/ctest.c", 9, "TEST_INTERNAL"); ("tests/ctest.c", 33, "TEST_INTERNAL"); ("tests/ctest.c", 75, "TEST_INTERNAL"); ("tests/ctest.c", 116, "TEST_INTERNAL"); ("tests/ctest.c", 161, "TEST_INTERNAL"); ("tests/ctest.c", 204, "TEST_INTERNAL"); ("tests/ctest.c", 274, "TEST_INTERNAL"); (* tests/ctest.c 9-274 *)
  ("tests/ctest.c", 349, "TEST_INTERNAL"); ("tests/ctest.c", 500, "TEST_INTERNAL"); ("tests/ctest.c", 536, "TEST_INTERNAL"); ("tests/ctest.c", 565, "TEST_INTERNAL"); ("tests/ctest.c", 633, "TEST_INTERNAL"); ("tests/ctest.c", 642, "TEST_INTERNAL"); ("tests/ctest.c", 667, "TEST_INTERNAL"); (* tests/ctest.c 349-667 *)
  ("tests/ctest.c", 713, "TEST_INTERNAL"); ("tests/ctest.c", 766, "TEST_INTERNAL"); ("tests/ctest.c", 802, "TEST_INTERNAL"); ("tests/ctest.c", 858, "TEST_INTERNAL"); ("tests/ctest.c", 1040, "TEST_INTERNAL"); (* tests/ctest.c 713-1040 *)
  ("tests/ftest.F90", 14, "TEST_INTERNAL"); ("tests/ftest.F90", 68, "TEST_INTERNAL"); ("tests/ftest.F90", 109, "TEST_INTERNAL"); ("tests/ftest.F90", 153, "TEST_INTERNAL"); ("tests/ftest.F90", 196, "TEST_INTERNAL"); ("tests/ftest.F90", 237, "TEST_INTERNAL"); ("tests/ftest.F90", 293, "TEST_INTERNAL"); (* tests/ftest.F90 14-293 *)
  ("tests/ftest.F90", 355, "TEST_INTERNAL"); ("tests/ftest.F90", 407, "TEST_INTERNAL"); ("tests/ftest.F90", 464, "TEST_INTERNAL"); ("tests/ftest.F90", 506, "TEST_INTERNAL"); ("tests/ftest.F90", 556, "TEST_INTERNAL") (* tests/ftest.F90 355-556 *)
].
(** The lines between an #ifdef and its #endif, by file and macro, in the C files (comm.c 136-139 to type.c 829-866), but for those that include config.h (copy.c 16, type.c 13).  There is no #else. *)
Definition regions : list (string * string * Z * Z) := [
  ("comm.c", "INFO", 136, 139); (* comm.c 136-139 *)
  ("copy.c", "TYPE_CHECKING", 73, 80); (* copy.c 73-80 *)
  ("handles.c", "HANDLE_INFO", 219, 223); (* handles.c 219-223 *)
  ("handles.c", "CHECKS", 228, 245); (* handles.c 228-245 *)
  ("handles.c", "CHECKS", 261, 263); (* handles.c 261-263 *)
  ("handles.c", "CHECKS", 288, 290); (* handles.c 288-290 *)
  ("handles.c", "CHECKS", 294, 300); (* handles.c 294-300 *)
  ("list.c", "CHECKS", 216, 218); (* list.c 216-218 *)
  ("list.c", "CHECKS", 250, 252); (* list.c 250-252 *)
  ("list.c", "CHECKS", 294, 300); (* list.c 294-300 *)
  ("list.c", "LISTMAIN", 592, 705); (* list.c 592-705 *)
  ("probe.c", "INFO", 31, 35); (* probe.c 31-35 *)
  ("recv.c", "INFO", 50, 54); (* recv.c 50-54 *)
  ("recv.c", "DEBUG", 88, 91); (* recv.c 88-91 *)
  ("recv.c", "INFO", 101, 103); (* recv.c 101-103 *)
  ("recv.c", "INFO", 128, 131); (* recv.c 128-131 *)
  ("recv.c", "INFO", 145, 166); (* recv.c 145-166 *)
  ("send.c", "INFO", 45, 49); (* send.c 45-49 *)
  ("send.c", "DEBUG", 77, 80); (* send.c 77-80 *)
  ("send.c", "INFO", 90, 92); (* send.c 90-92 *)
  ("send.c", "INFO", 116, 119); (* send.c 116-119 *)
  ("type.c", "TEST_INTERNAL", 829, 866) (* type.c 829-866 *)
].


(** ** make *)
(** A rule: what it makes, what it needs, and what its commands make besides (e.g. Makefile.in 875). *)
Record rule := mkRule { ru_target : string; ru_needs : list string; ru_besides : list string }.
(** The object and the source (Makefile.in 530 and 536); compiling mpif.F90 makes mpi.mod too, since it holds the module mpi (mpif.F90 5). *)
Definition object_rule (base ext : string) : rule := mkRule (base ++ ".o")%string [(base ++ ext)%string] (if String.eqb base "mpif" then ["mpi.mod"] else []).
(** The objects in order, with the kind of their source; two are named twice (Makefile.in 143-151). *)
Definition objects : list (string * string) := [
  ("fort", ".F90"); ("mpif", ".F90"); ("mpi", ".c"); ("send", ".c"); ("recv", ".c"); ("collective", ".c");
  ("req", ".c"); ("collective", ".c"); ("req", ".c"); ("list", ".c"); ("handles", ".c"); ("comm", ".c");
  ("error", ".c"); ("ic_merge", ".c"); ("group", ".c"); ("time", ".c"); ("pack", ".c"); ("type", ".c");
  ("type_const", ".c"); ("copy", ".c"); ("op", ".c"); ("cart", ".c"); ("getcount", ".c"); ("probe", ".c");
  ("info", ".c")
].
(** The rules that "make" follows in the main directory once the makefile and config.h are there and up to date (Makefile.in 491, 530-547 and 875).  Headers that were included when an object was made
    before (Makefile.in 501-521) are left out. *)
Definition rules : list rule :=
  mkRule "all-am" ["Makefile"; "libmpi-serial.a"; "mpi.h"; "mpif.h"; "mpi.mod"; "config.h"] [] ::
  mkRule "libmpi-serial.a" (map (fun o => (fst o ++ ".o")%string) objects) [] ::
  map (fun o => object_rule (fst o) (snd o)) objects.
(** The rule for a target (Makefile.in 491). *)
Definition rule_for (t : string) : option rule := find (fun r => String.eqb (ru_target r) t) rules.
(** What make does: it looks whether something without a rule is there, or runs the commands of a rule (GNU make; Makefile.in 875). *)
Inductive step := Look (f : string) | Run (t : string).
(** The steps for a target when each is finished before the next is begun, in order: first those for what it needs (GNU make without -j; Makefile.in 875).  What was done before
    is not done again.  [fuel]: how deep the rules go. *)
Fixpoint steps (fuel : nat) (t : string) (before : list step) : list step :=
  match fuel with
  | O => before
  | S fuel =>
    match rule_for t with
    | None => if existsb (fun s => match s with Look f => String.eqb f t | Run _ => false end) before then before else before ++ [Look t]
    | Some r =>
      if existsb (fun s => match s with Run u => String.eqb u t | Look _ => false end) before then before
      else (fix needs (l : list string) (b : list step) : list step := match l with [] => b | x :: l => needs l (steps fuel x b) end) (ru_needs r) before ++ [Run t]
    end
  end.
(** "make all-am" in the main directory (Makefile.in 875). *)
Definition make_all : list step := steps 4 "all-am" [].
(** The files there are after the steps, or the first that is missing: "No rule to make target" (GNU make; Makefile.in 875).  The commands are taken to succeed. *)
Fixpoint perform (l : list step) (there : list string) : list string + string :=
  match l with
  | [] => inl there
  | Look f :: l => if existsb (String.eqb f) there then perform l there else inr f
  | Run t :: l => perform l (t :: match rule_for t with Some r => ru_besides r | None => [] end ++ there)
  end.

(** Where files are looked for: the directory of the sources or the one where configure was called, each with its tests (Makefile.in 165, tests/Makefile.in 119). *)
Inductive dir := Src | Src_tests | Build | Build_tests.
(** The directories for the library and for the tests; srcdir is among them if it is another one (Makefile.in 165, tests/Makefile.in 119, configure 2785-2788). *)
Definition library_dirs : list dir := [Build; Src].
(** The same for the tests (tests/Makefile.in 119). *)
Definition tests_dirs : list dir := [Build_tests; Src_tests; Build].
(** The files of the tests (tests/Makefile.am 1-6). *)
Definition test_files : list string := ["Makefile.am"; "Makefile.in"; "ctest.c"; "ctest_old.c"; "ftest.F90"; "ftest_internal.F90"; "ftest_old.F90"].
(** What is in a directory before the tests are made, if configure was called in a directory of its own (configure 2785; Makefile.in 875). *)
Definition contents (d : dir) : list string :=
  match d with Src => files | Src_tests => test_files | Build => ["Makefile"; "config.h"; "config.status"; "libmpi-serial.a"; "mpi.mod"] | Build_tests => ["Makefile"] end.
(** The same if it was called in the directory of the sources (configure 2785). *)
Definition contents_together (d : dir) : list string :=
  match d with Src | Build => contents Src ++ contents Build | Src_tests | Build_tests => contents Src_tests ++ contents Build_tests end.
(** What the test programs that "make check" makes include, and the modules they use (tests/ctest.c 1-6, tests/ftest.F90 2 and 6; tests/Makefile.am 1-4), without TEST_INTERNAL. *)
Definition tests_need : list (string * list string) := [("ctest.c", ["mpi.h"; "stdio.h"; "stdlib.h"; "config.h"]); ("ftest.F90", ["config.h"; "mpi.mod"])].
(** What the Fortran files of the library include (fort.F90 13 and 64, mpif.F90 2 and 11). *)
Definition fortran_needs : list (string * list string) := [("fort.F90", ["mpif.h"]); ("mpif.F90", ["config.h"; "mpif.h"])].
