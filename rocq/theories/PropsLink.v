(** Theorems about the library as a whole: its routines, what they call and what is declared (C105, C106). *)
From Verif Require Import Base LinkModel BindModel RetModel LinkSpec LinkFacts.
From Coq Require Import Relations.
#[local] Open Scope nat_scope.
#[local] Open Scope string_scope.
#[local] Open Scope list_scope.

(** C105: every name a routine of the library uses stands for exactly one routine, whatever way Fortran names are made (with TEST_INTERNAL: unless Fortran names
    are the same as those of C). *)
Theorem C105_closed : forall m lib, lib = library \/ lib = library ++ internal /\ m <> SAME ->
  forall f n, In f lib -> In n (fn_calls f ++ fn_passes f) -> linked m lib (fn_file f) n.
Proof. exact C105_closed_lemma. Qed.
Print Assumptions C105_closed.

(** The name mpi_match_send is used in two files, and stands for a different routine in each. *)
Example C105_closed_ex :
  map (fun f => (fn_file f, fn_name f)) (filter (fun f => existsb (nmb (C "mpi_match_send")) (fn_passes f)) library) = [("probe.c", C "MPI_Iprobe"); ("recv.c", C "MPI_Irecv")] /\
  map (fun g => (fn_file g, fn_static g)) (these SAME library "probe.c" (C "mpi_match_send")) = [("probe.c", true)] /\
  map (fun g => (fn_file g, fn_static g)) (these SAME library "recv.c" (C "mpi_match_send")) = [("recv.c", true)] /\
  these SAME library "send.c" (C "mpi_match_send") = [] /\ length library = 255.
Proof. do 4 (split; [vm_compute; reflexivity|]). vm_compute. reflexivity. Qed.

(** C105: no two routines have the same name for the linker.  Missing: with FORTRAN_CAPS_ that is wrong, and with TEST_INTERNAL and FORTRAN_SAME. *)
Theorem C105_once_partial : forall m lib, m <> CAPS -> lib = library \/ lib = library ++ internal /\ m <> SAME ->
  forall f g, In f lib -> In g lib -> ~ clash m f g.
Proof. exact C105_once_lemma. Qed.
Print Assumptions C105_once_partial.

(** C105: with FORTRAN_CAPS_ the bindings of MPI_Get_address and of MPI_Address are both called MPI_ADDRESS, and there is no MPI_GET_ADDRESS; with TEST_INTERNAL and
    FORTRAN_SAME there are two print_typemap. *)
Theorem C105_once_refuted :
  (exists f g, In f library /\ In g library /\ fn_name f = F "mpi_get_address" "MPI_ADDRESS" /\ fn_name g = F "mpi_address" "MPI_ADDRESS" /\ clash CAPS f g) /\
  missing CAPS library "" (F "mpi_get_address" "MPI_GET_ADDRESS") /\
  exists f g, In f (library ++ internal) /\ In g (library ++ internal) /\ fn_name f = F "print_typemap" "PRINT_TYPEMAP" /\ fn_name g = C "print_typemap" /\ clash SAME f g.
Proof. exact C105_once_refuted_lemma. Qed.
Print Assumptions C105_once_refuted.

(** C105: what the headers declare is there, with the same types.  Missing: MPI_Type_dup, and print_typemap without TEST_INTERNAL. *)
Theorem C105_declared_partial : forall d, In d declarations -> ~ In (d_name d) [C "MPI_Type_dup"; C "print_typemap"] -> exists f, In f library /\ agrees d f.
Proof. exact C105_declared_lemma. Qed.
Print Assumptions C105_declared_partial.

(** In the headers there are 136 declarations, 96 of them in mpi.h. *)
Example C105_declared_ex : length declarations = 136 /\ length (filter (fun d => String.eqb (d_file d) "mpi.h") declarations) = 96 /\
  existsb (fun d => nmb (d_name d) (C "MPI_Type_struct") && negb (ctyb (nth 2 (d_params d) ("", 0)) ("int", 1)) && ctyb (plain (nth 2 (d_params d) ("", 0))) ("unsigned long", 1)) declarations = true.
Proof. do 2 (split; [vm_compute; reflexivity|]). vm_compute. reflexivity. Qed.

(** C105: mpi.h declares MPI_Type_dup, and a program that calls it cannot be linked; type.h declares print_typemap, which is there only with TEST_INTERNAL. *)
Theorem C105_declared_refuted :
  (exists d, In d declarations /\ d_file d = "mpi.h" /\ d_name d = C "MPI_Type_dup") /\
  (forall m, missing m (library ++ internal) "" (C "MPI_Type_dup")) /\
  (exists d, In d declarations /\ d_file d = "type.h" /\ d_name d = C "print_typemap") /\
  (forall m, missing m library "" (C "print_typemap")) /\
  forall d, In d declarations -> d_name d = C "print_typemap" -> exists f, In f internal /\ agrees d f.
Proof. exact C105_declared_refuted_lemma. Qed.
Print Assumptions C105_declared_refuted.

(** C105: mpi.h declares every routine of MPI the library has, with its types, but for five. *)
Theorem C105_public :
  (forall f s, In f library -> fn_name f = C s -> fn_static f = false -> String.prefix "MPI_" s = true -> ~ In s not_in_mpi_h ->
     exists d, In d declarations /\ d_file d = "mpi.h" /\ agrees d f) /\
  (forall s, In s not_in_mpi_h -> (exists f, In f library /\ fn_name f = C s /\ fn_static f = false) /\ forall d, In d declarations -> d_file d = "mpi.h" -> d_name d <> C s).
Proof. exact C105_public_lemma. Qed.
Print Assumptions C105_public.

(** C105: every routine of MPI but for thirteen has a Fortran routine with one parameter more. *)
Theorem C105_bindings : forall c s, In c library -> fn_name c = C s -> fn_static c = false -> String.prefix "MPI_" s = true -> ~ In s C_only ->
  exists f, In f library /\ binding_of c f.
Proof. exact C105_bindings_lemma. Qed.
Print Assumptions C105_bindings.

(** There are 99 routines of MPI and 92 of Fortran. *)
Example C105_bindings_ex :
  length (filter (fun f => match fn_name f with C s => String.prefix "MPI_" s | F _ _ => false end) library) = 99 /\
  length (filter (fun f => match fn_name f with C _ => false | F _ _ => true end) library) = 92.
Proof. split; vm_compute; reflexivity. Qed.

(** C105: the tables of C80 (bindings, prototypes) and C74 (returns_of, ierror_of) are about the same routines: the same names, parameters and calls; the first
    has every binding but six, the second every routine that returns an error code. *)
Theorem C105_tables :
  (forall b, In b bindings -> exists f, In f (library ++ internal) /\ fn_name f = F (b_lower b) (b_upper b) /\
     map as_prm (fn_params f) = map (fun p => Some (snd p)) (b_params b) /\ In (C (b_callee b)) (fn_calls f)) /\
  (forall p, In p prototypes -> exists f, In f (library ++ internal) /\ fn_name f = C (fst p) /\ map as_prm (fn_params f) = map Some (snd p)) /\
  (forall f lo up, In f (library ++ internal) -> fn_name f = F lo up -> ~ In lo ["mpi_init_fort"; "mpi_save_fort_pointers"; "mpi_wtime"] -> fn_file f <> "fort.F90" ->
     exists b, In b bindings /\ b_lower b = lo /\ b_upper b = up) /\
  (forall p, In p returns_of -> exists f, In f (library ++ internal) /\ text_of (fn_name f) = fst p /\
     forall g, In (Of g) (snd p) -> exists n, In n (fn_calls f) /\ text_of n = g) /\
  (forall f, In f (library ++ internal) -> fn_ret f = ("int", 0) -> ~ In (text_of (fn_name f)) no_code -> exists rs, In (text_of (fn_name f), rs) returns_of) /\
  (forall p, In p ierror_of -> exists f, In f (library ++ internal) /\ text_of (fn_name f) = fst p /\
     forall g, snd p = Of g -> exists n, In n (fn_calls f) /\ text_of n = g).
Proof. exact C105_tables_lemma. Qed.
Print Assumptions C105_tables.

(** C105: the test programs (built without TEST_INTERNAL) can be linked, and those in Fortran, like fort.F90, give every routine as many arguments as it has
    parameters.  Missing: two calls. *)
Theorem C105_tests_partial : forall m,
  (forall n, In n (ctest_calls ++ ctest_old_calls) -> linked m library "" n) /\
  (forall x, In x fort_calls -> called_right m library "" x) /\
  (m <> CAPS -> forall x, In x (ftest_calls ++ ftest_old_calls) -> x <> (F "mpi_send" "MPI_SEND", 8) -> x <> (F "mpi_unpack" "MPI_UNPACK", 7) -> called_right m library "" x).
Proof. exact C105_tests_lemma. Qed.
Print Assumptions C105_tests_partial.

(** C105: ftest.F90 298 gives mpi_send an argument too many, ftest_old.F90 136 gives mpi_unpack one too few. *)
Theorem C105_tests_refuted :
  In (F "mpi_send" "MPI_SEND", 8) ftest_calls /\ In (F "mpi_unpack" "MPI_UNPACK", 7) ftest_old_calls /\
  forall m, ~ called_right m library "" (F "mpi_send" "MPI_SEND", 8) /\ ~ called_right m library "" (F "mpi_unpack" "MPI_UNPACK", 7).
Proof. exact C105_tests_refuted_lemma. Qed.
Print Assumptions C105_tests_refuted.

(** C105: with TEST_INTERNAL every other call of the test programs finds one routine with as many parameters, as long as Fortran names are lower case with
    underscores.  Missing: the calls below. *)
Theorem C105_internal_partial : forall m, m <> SAME -> m <> CAPS ->
  (forall n, In n ctest_internal_calls -> n <> C "copy_data" -> linked m (library ++ internal) "" n) /\
  (forall x, In x (ftest_with_internal_calls ++ ftest_internal_calls) -> x <> (F "copy_data2" "COPY_DATA2", 7) ->
     x <> (F "mpi_type_indexed_block" "MPI_TYPE_INDEXED_BLOCK", 6) -> called_right m (library ++ internal) "" x).
Proof. exact C105_internal_lemma. Qed.
Print Assumptions C105_internal_partial.
Example C105_internal_ex : In (F "mpi_gatherv" "MPI_GATHERV", 10) ftest_with_internal_calls /\ In (F "print_typemap" "PRINT_TYPEMAP", 2) ftest_internal_calls /\
  In (C "print_typemap") ctest_internal_calls.
Proof. split; [|split]; [apply callb_in|apply callb_in|apply nmb_in]; vm_compute; reflexivity. Qed.

(** C105: with TEST_INTERNAL no test program but the old ones can be linked, whatever way Fortran names are made: ctest.c calls copy_data, ftest.F90 and ftest_internal.F90
    call copy_data2, and ftest_internal.F90 calls mpi_type_indexed_block. *)
Theorem C105_internal_refuted :
  (In (C "copy_data") ctest_internal_calls /\ forall m, missing m (library ++ internal) "" (C "copy_data")) /\
  (In (F "copy_data2" "COPY_DATA2", 7) ftest_with_internal_calls /\ In (F "copy_data2" "COPY_DATA2", 7) ftest_internal_calls /\
   (forall m, m <> SAME -> missing m (library ++ internal) "" (F "copy_data2" "COPY_DATA2")) /\
   ~ called_right SAME (library ++ internal) "" (F "copy_data2" "COPY_DATA2", 7)) /\
  (In (F "mpi_type_indexed_block" "MPI_TYPE_INDEXED_BLOCK", 6) ftest_internal_calls /\
   forall m, missing m (library ++ internal) "" (F "mpi_type_indexed_block" "MPI_TYPE_INDEXED_BLOCK")).
Proof. exact C105_internal_refuted_lemma. Qed.
Print Assumptions C105_internal_refuted.

(** C106: no routine calls itself, directly or through others. *)
Theorem C106_no_recursion : forall m lib, lib = library \/ lib = library ++ internal /\ m <> SAME -> forall f, ~ clos_trans fn (calls m lib) f f.
Proof. exact C106_lemma. Qed.
Print Assumptions C106_no_recursion.

(** C106: at most nine routines of the library are active at any time. *)
Theorem C106_depth : forall m lib, lib = library \/ lib = library ++ internal /\ m <> SAME ->
  forall f l, In f lib -> chain m lib f l -> length (f :: l) <= 9.
Proof. exact C106_depth_lemma. Qed.
Print Assumptions C106_depth.

(** Nine of them. *)
Example C106_depth_ex : exists f l, In f library /\ chain ONE_UNDERSCORE library f l /\
  map fn_name (f :: l) = [F "mpi_sendrecv" "MPI_SENDRECV"; C "MPI_Sendrecv"; C "MPI_Send"; C "MPI_Isend"; C "copy_data2"; C "mpi_handle_to_datatype"; C "mpi_handle_to_ptr"; C "init_handles"; C "init_block"].
Proof.
  apply (chain_found ONE_UNDERSCORE library (F "mpi_sendrecv" "MPI_SENDRECV")
    [C "MPI_Sendrecv"; C "MPI_Send"; C "MPI_Isend"; C "copy_data2"; C "mpi_handle_to_datatype"; C "mpi_handle_to_ptr"; C "init_handles"; C "init_block"]).
  vm_compute. reflexivity.
Qed.

(** C106: which routines of MPI can never end the program. *)
Theorem C106_stop : forall m f s, In f library -> fn_name f = C s -> String.prefix "MPI_" s = true -> ~ may_stop m library f <-> In s returning.
Proof. exact C106_stop_lemma. Qed.
Print Assumptions C106_stop.

(** Both kinds. *)
Example C106_stop_ex : In "MPI_Finalize" returning /\ ~ In "MPI_Send" returning /\
  existsb (called (C "MPI_Finalize")) library = true /\ existsb (called (C "MPI_Send")) library = true.
Proof.
  split; [|split; [|split; vm_compute; reflexivity]].
  - assert (H : existsb (String.eqb "MPI_Finalize") returning = true) by (vm_compute; reflexivity). apply existsb_exists in H. destruct H as [x [A B]].
    apply String.eqb_eq in B. now subst x.
  - intros H. assert (K : existsb (String.eqb "MPI_Send") returning = false) by (vm_compute; reflexivity).
    assert (X : existsb (String.eqb "MPI_Send") returning = true) by (apply existsb_exists; exists "MPI_Send"; split; [exact H|apply String.eqb_refl]).
    rewrite X in K. discriminate K.
Qed.

(** C106: through pointers only the two comparisons of tags are called, so never a function of the program (e.g. one given to MPI_Op_create). *)
Theorem C106_pointers : forall m f g, calls m library f g -> fn_indirect f = true -> In (fn_name g) [C "mpi_match_send"; C "mpi_match_recv"].
Proof. exact C106_pointers_lemma. Qed.
Print Assumptions C106_pointers.
