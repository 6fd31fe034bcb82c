(** Theorems about how the library is put together: declarations, files and the names of Fortran (C109, C110, C111). *)
From Verif Require Import Base LinkModel LinkSpec BuildModel BuildSpec BuildFacts.
#[local] Open Scope string_scope.
#[local] Open Scope list_scope.

(** C109: whatever macros are defined, every name that a routine uses has been declared before: earlier in its file or in a header it includes.  Missing: three uses. *)
Theorem C109_declared_partial : forall on p u, In p places -> In u (p_uses p) -> compiled on (p_when p) -> compiled on (u_when u) -> ~ In (p_file p, u) undeclared ->
  declared on (p_file p) (u_line u) (u_name u).
Proof. exact C109_declared_lemma. Qed.
Print Assumptions C109_declared_partial.

(** There are 259 routines with 546 uses; MPI_Send is used in send.c before it is written, and is declared in mpi.h; the static mpi_match_send of recv.c is not
    declared anywhere else. *)
Example C109_declared_ex :
  length places = 259%nat /\ length (flat_map p_uses places) = 546%nat /\
  nodeclb "recv.c" 12 (C "mpi_match_send") = true /\ declb [] "recv.c" 75 (C "mpi_match_send") = true /\ declb [] "send.c" 1 (C "MPI_Send") = true.
Proof. do 4 (split; [vm_compute; reflexivity|]). vm_compute. reflexivity. Qed.

(** C109: the three uses are there, and nothing declares them, whatever macros are defined: with --enable-info or --enable-test-internal a compiler that follows C99
    does not accept recv.c, send.c or type.c. *)
Theorem C109_declared_refuted : forall f u, In (f, u) undeclared ->
  (exists p, In p places /\ p_file p = f /\ In u (p_uses p)) /\ forall on, ~ declared on f (u_line u) (u_name u).
Proof. exact C109_declared_refuted_lemma. Qed.
Print Assumptions C109_declared_refuted.

(** C109: a use lies between the first and the last line of its routine, and two routines of a file do not overlap. *)
Theorem C109_lines :
  (forall p u, In p places -> In u (p_uses p) -> p_first p <= u_line u <= p_last p) /\
  (forall p q, In p places -> In q places -> p_file p = p_file q -> p = q \/ p_last p < p_first q \/ p_last q < p_first p).
Proof. exact C109_lines_lemma. Qed.
Print Assumptions C109_lines.

(** C109: the table of routines of C105 and this one agree: each routine has its place, and each place its routine, with the same names used. *)
Theorem C109_same :
  (forall f, In f library -> fn_file f <> "fort.F90" -> exists p, In p places /\ same None f p) /\
  (forall f, In f internal -> exists p, In p places /\ same (Some "TEST_INTERNAL") f p) /\
  (forall p, In p places -> p_when p = None -> exists f, In f library /\ same None f p) /\
  (forall p, In p places -> p_when p = Some "TEST_INTERNAL" -> exists f, In f internal /\ same (Some "TEST_INTERNAL") f p).
Proof. exact C109_same_lemma. Qed.
Print Assumptions C109_same.

(** C109: what the macros for checks and messages add to the routines is exactly the list [added]; there are no other macros but TEST_INTERNAL and LISTMAIN; and
    those for messages add calls for output only. *)
Theorem C109_macros :
  (forall file r n w, In (file, r, n, w) added <-> In w watching /\ exists p u, In p places /\ In u (p_uses p) /\ needs p u w /\ p_file p = file /\ p_name p = r /\ u_name u = n) /\
  (forall p u w, In p places -> In u (p_uses p) -> needs p u w -> In w (watching ++ ["TEST_INTERNAL"; "LISTMAIN"])) /\
  (forall file r n w, In (file, r, n, w) added -> In n (map C ["fflush"; "fprintf"; "printf"; "print_list"; "print_item"; "AP_list_apply"]) \/ In w ["CHECKS"; "TYPE_CHECKING"] /\ In n (map C ["abort"; "exit"; "verify_handle"])).
Proof. exact C109_macros_lemma. Qed.
Print Assumptions C109_macros.

(** MPI_Send of send.c is one that INFO changes. *)
Example C109_macros_ex : existsb (rowb ("send.c", C "MPI_Send", C "fprintf", "INFO")) added = true.
Proof. vm_compute. reflexivity. Qed.

(** C109: a prototype written in a C file agrees with the routine written in it, and a routine passed to the lists takes two addresses and returns an int. *)
Theorem C109_types :
  (forall file l d, In (file, l, d) prototypes_in -> exists f, In f library /\ fn_file f = file /\ agrees d f) /\
  (forall f n g, In f library -> In n (fn_passes f) -> In g library -> fn_name g = n -> can_be_passed g).
Proof. exact C109_types_lemma. Qed.
Print Assumptions C109_types.

(** Three routines pass one: MPI_Iprobe, MPI_Irecv and MPI_Isend. *)
Example C109_types_ex :
  length prototypes_in = 1%nat /\
  map (fun f => (fn_name f, fn_passes f)) (filter (fun f => match fn_passes f with [] => false | _ => String.prefix "MPI_" (match fn_name f with C s => s | F s _ => s end) end) library) =
    [(C "MPI_Iprobe", [C "mpi_match_send"]); (C "MPI_Irecv", [C "mpi_match_send"]); (C "MPI_Isend", [C "mpi_match_recv"])].
Proof. split; vm_compute; reflexivity. Qed.

(** C110: the makefile compiles the file of every routine, and every C and Fortran file of the directory; each has a routine in it but the module and the
    tables of types. *)
Theorem C110_sources :
  (forall f, In f (library ++ internal) -> In (fn_file f) sources) /\
  (forall s, In s sources -> In s files /\ ((exists f, In f library /\ fn_file f = s) \/ In s ["mpif.F90"; "type_const.c"])) /\
  (forall s, In s files -> (exists n, s = (n ++ ".c")%string \/ s = (n ++ ".F90")%string) -> In s sources).
Proof. exact C110_sources_lemma. Qed.
Print Assumptions C110_sources.

(** collective.c and req.c stand in the list twice, the others once (Makefile.am 2-4). *)
Example C110_sources_ex :
  count_occ string_dec sources "collective.c" = 2%nat /\ count_occ string_dec sources "req.c" = 2%nat /\ length sources = (length (nodup string_dec sources) + 2)%nat.
Proof. do 2 (split; [vm_compute; reflexivity|]). vm_compute. reflexivity. Qed.

(** C110: every file that includes one is there, the headers included are there, or are made by configure, or are those of C; every C file and header is in
    the table (mpif.h is Fortran's). *)
Theorem C110_headers :
  (forall f l, In (f, l) includes -> In f files) /\
  (forall f, In f files -> (exists n, f = (n ++ ".c")%string \/ f = (n ++ ".h")%string) -> f <> "mpif.h" -> exists l, In (f, l) includes) /\
  (forall f l h, In (f, l) includes -> In h l -> In h files \/ In h made_by_configure \/ exists r, In (h, r) c_headers).
Proof. exact C110_headers_lemma. Qed.
Print Assumptions C110_headers.

(** C110: no header of the library is read twice when a file is compiled, so that no type is defined twice. *)
Theorem C110_once : forall s l, In s sources -> reads [] s l -> NoDup (filter of_library l).
Proof. exact C110_once_lemma. Qed.
Print Assumptions C110_once.

(** Every file can be read; handles.c includes headers that include each other. *)
Theorem C110_read : forall s, In s sources -> exists l, reads [] s l.
Proof. exact C110_read_lemma. Qed.
Print Assumptions C110_read.

(** For handles.c, mpiP.h is included twice, the second time by type.h, and read once (handles.c 8-9, type.h 7). *)
Example C110_read_ex : match rd 9 [] "handles.c" with Some l => filter of_library l | None => [] end = ["mpiP.h"; "listops.h"; "list.h"; "mpi.h"; "type.h"].
Proof. vm_compute. reflexivity. Qed.

(** C110: what is installed for programs needs nothing that is not installed. *)
Theorem C110_installed : forall h l x, In h installed -> In (h, l) includes -> In x l -> In x installed.
Proof. exact C110_installed_lemma. Qed.
Print Assumptions C110_installed.

(** C110: "make dist" does not pack all that the library needs: five headers are left out; and it wants five files that are not there (all others are). *)
Theorem C110_dist_refuted :
  (forall h, In h ["mpiP.h"; "type.h"; "list.h"; "listP.h"; "listops.h"] -> In h files /\ ~ In h dist_files /\ exists s, In s sources /\ reaches s h) /\
  (forall x, In x ["COPYING"; "ChangeLog"; "INSTALL"; "NEWS"; "mpi.mod"] -> In x dist_files /\ ~ In x files) /\
  (forall x, In x dist_files -> In x files \/ In x ["COPYING"; "ChangeLog"; "INSTALL"; "NEWS"; "mpi.mod"]).
Proof. exact C110_dist_lemma. Qed.
Print Assumptions C110_dist_refuted.

(** C111: with config.h every Fortran routine has the name that the Fortran compiler gives it.  Missing: compilers that add a second underscore to names with an
    underscore in them, and mpi_get_address in upper case. *)
Theorem C111_names_partial : forall sc f lo u, In f (library ++ internal) -> fn_name f = F lo u -> sc_extra sc = false -> (sc_upper sc = true -> lo <> "mpi_get_address") ->
  config_symbol sc (fn_name f) = fortran_name sc lo.
Proof. exact C111_names_lemma. Qed.
Print Assumptions C111_names_partial.

(** The four ways without a second underscore give mpi_send four names. *)
Example C111_names_ex :
  map (fun sc => fortran_name sc "mpi_send") [mkScheme false true false; mkScheme false false false; mkScheme true true false; mkScheme true false false; mkScheme false true true] =
    ["mpi_send_"; "mpi_send"; "MPI_SEND_"; "MPI_SEND"; "mpi_send__"] /\
  existsb (fun f => match fn_name f with F lo _ => String.eqb lo "mpi_send" | C _ => false end) library = true.
Proof. split; vm_compute; reflexivity. Qed.

(** C111: a compiler that adds a second underscore finds none of them, whatever else it does; one with upper case does not find mpi_get_address; with FC_FUNC_,
    which config.h has too and the comment of mpiP.h means, the first would be right. *)
Theorem C111_names_refuted :
  (forall sc f lo u g, In f (library ++ internal) -> fn_name f = F lo u -> sc_extra sc = true -> In g (library ++ internal) -> config_symbol sc (fn_name g) <> fortran_name sc lo) /\
  (forall sc g, sc_upper sc = true -> In g (library ++ internal) -> config_symbol sc (fn_name g) <> fortran_name sc "mpi_get_address") /\
  (forall sc f lo u, In f (library ++ internal) -> fn_name f = F lo u -> (sc_upper sc = true -> lo <> "mpi_get_address") -> fc_func_ sc lo u = fortran_name sc lo).
Proof. exact C111_names_refuted_lemma. Qed.
Print Assumptions C111_names_refuted.

(** C111: the four ways that one can define by hand are those of a compiler: with FORTRAN_GNUF2C, that with a second underscore, since all names have one in them. *)
Theorem C111_by_hand : forall m f lo u, In f (library ++ internal) -> fn_name f = F lo u -> (m = CAPS -> lo <> "mpi_get_address") -> symbol m (fn_name f) = fortran_name (by_hand m) lo.
Proof. exact C111_by_hand_lemma. Qed.
Print Assumptions C111_by_hand.

(** C111: with config.h no two routines of the library clash but the bindings of MPI_Get_address and MPI_Address, and these only in upper case. *)
Theorem C111_once_partial : forall sc f g, In f library -> In g library -> clash_config sc f g ->
  sc_upper sc = true /\ (fn_name f = F "mpi_get_address" "MPI_ADDRESS" /\ fn_name g = F "mpi_address" "MPI_ADDRESS" \/ fn_name g = F "mpi_get_address" "MPI_ADDRESS" /\ fn_name f = F "mpi_address" "MPI_ADDRESS").
Proof. exact C111_once_lemma. Qed.
Print Assumptions C111_once_partial.

(** C111: in upper case these two do clash. *)
Theorem C111_once_refuted : forall sc, sc_upper sc = true -> exists f g, In f library /\ In g library /\ clash_config sc f g.
Proof. exact C111_once_refuted_lemma. Qed.
Print Assumptions C111_once_refuted.
