(** Theorems about the names that the files define and use, and about those that the library brings into a program (C116, C117). *)
From Verif Require Import Base LinkModel BuildModel ConfModel NameModel NameSpec NameFacts.
#[local] Open Scope string_scope.
#[local] Open Scope Z_scope.
#[local] Open Scope list_scope.

(** C116: whichever macros are given, each C file can be read with its headers, and every macro, type, variable and member in it is defined before it is used. *)
Theorem C116_defined : forall on s, In s sources -> s <> "fort.F90" -> s <> "mpif.F90" -> exists t seen, expand 9 on [] s = Some (t, seen) /\ defined_before on t.
Proof. exact C116_defined_lemma. Qed.
Print Assumptions C116_defined.

(** type.c with HAVE_CONFIG_H: many names; Req is defined and list.c's List is not; FSIZE_COMPLEX needs FSIZE_REAL. *)
Example C116_defined_ex :
  match expand 9 (String.eqb "HAVE_CONFIG_H") [] "type.c" with
  | Some (t, seen) => (Nat.leb 200 (length t), existsb (fun e => match e with EDef "mpiP.h" 103 "Req" [] => true | _ => false end) t, existsb (fun e => match e with EDef _ _ "List" _ => true | _ => false end) t,
      existsb (fun e => match e with EDef "type.h" 113 "FSIZE_COMPLEX" ["FSIZE_REAL"] => true | _ => false end) t, seen)
  | None => (false, false, false, false, [])
  end = (true, true, false, true, ["mpi.h"; "listops.h"; "mpiP.h"; "type.h"]).
Proof. vm_compute. reflexivity. Qed.

(** C116: no macro, type or variable is defined twice. *)
Theorem C116_once : forall on s t seen, In s sources -> s <> "fort.F90" -> s <> "mpif.F90" -> expand 9 on [] s = Some (t, seen) -> NoDup (defined_names t).
Proof. exact C116_once_lemma. Qed.
Print Assumptions C116_once.

(** Those of list.c. *)
Example C116_once_ex : match expand 9 (fun _ => false) [] "list.c" with Some (t, _) => defined_names t | None => [] end = ["pList"; "pListitem"; "List"; "Listitem"; "itemcount"; "headcount"].
Proof. vm_compute. reflexivity. Qed.

(** C116: the #error of mpiP.h stops the compiler exactly if there is no config.h and no macro says how Fortran makes its names; it does not for list.c. *)
Theorem C116_error : forall on s t seen, In s sources -> s <> "fort.F90" -> s <> "mpif.F90" -> expand 9 on [] s = Some (t, seen) ->
  ((exists f l, In (EStop f l) t) <-> s <> "list.c" /\ on "HAVE_CONFIG_H" = false /\ forall x, In x fortran_macros -> on x = false).
Proof. exact C116_error_lemma. Qed.
Print Assumptions C116_error.

(** Without any macro, send.c stops; with FORTRAN_SAME it does not. *)
Example C116_error_ex :
  (let stops on := match expand 9 on [] "send.c" with Some (t, _) => existsb (fun e => match e with EStop "mpiP.h" 65 => true | _ => false end) t | None => false end in
   (stops (fun _ => false), stops (String.eqb "FORTRAN_SAME"))) = (true, false).
Proof. vm_compute. reflexivity. Qed.

(** C116: the files are those of C110, with the same headers; the tests are those of C109; every variable has its line. *)
Theorem C116_includes : forall f l, In (f, l) includes -> exists rs, text_of f = Some rs /\ l = flat_map (fun r => match r_item r with Incl h => [h] | _ => [] end) rs.
Proof. exact C116_includes_lemma. Qed.
Print Assumptions C116_includes.
Theorem C116_tests : forall s rs r, In s sources -> s <> "fort.F90" -> s <> "mpif.F90" -> text_of s = Some rs -> In r rs -> (forall h, r_item r <> Incl h) ->
  (forall m, ~ In (false, m) (r_when r)) /\ (forall m, In (true, m) (r_when r) <-> exists a b, In (s, m, a, b) regions /\ a < r_line r < b).
Proof. exact C116_tests_lemma. Qed.
Print Assumptions C116_tests.
Theorem C116_variables : forall f n l st, In (f, n, l, st) variables -> exists rs r, text_of f = Some rs /\ In r rs /\ r_line r = l /\ r_item r = Def n.
Proof. exact C116_variables_lemma. Qed.
Print Assumptions C116_variables.

(** C116: the types of the results and parameters of C105 are C's, or are used in the text. *)
Theorem C116_types : forall g t, In g library -> fn_file g <> "fort.F90" -> In t (fn_ret g :: fn_params g) ->
  In (fst t) ["int"; "void"; "char"; "double"; "long"; "int(void*,void*)"] \/ exists rs r, text_of (fn_file g) = Some rs /\ In r rs /\ r_item r = Use (fst t).
Proof. exact C116_types_lemma. Qed.
Print Assumptions C116_types.

(** mpi.h, one of the tests, one of the variables, one of the types. *)
Example C116_tables_ex :
  In ("mpiP.h", ["unistd.h"; "stdlib.h"; "stdio.h"; "string.h"; "listops.h"; "mpi.h"; "config.h"]) includes /\
  existsb (fun r => match r with mkRow 52 [(true, "INFO")] (Use "stderr") => true | _ => false end) t_recv_c = true /\
  In ("type_const.c", "simpletypes", 171, false) variables /\ length (filter (fun g => String.eqb (fn_file g) "error.c") library) = 1%nat.
Proof.
  split; [unfold includes; repeat (left; reflexivity) || (repeat (try (left; reflexivity); right))|]. split; [vm_compute; reflexivity|].
  split; [|vm_compute; reflexivity]. assert (existsb (fun v => let '(f, n, l, st) := v in String.eqb f "type_const.c" && String.eqb n "simpletypes" && Z.eqb l 171 && negb st) variables = true) as E by (vm_compute; reflexivity).
  apply existsb_exists in E as [[[[f n] l] st] [H E]]. apply andb_prop in E as [E E4]. apply andb_prop in E as [E E3]. apply andb_prop in E as [E1 E2].
  apply String.eqb_eq in E1, E2. apply Z.eqb_eq in E3. destruct st; [discriminate|]. subst. exact H.
Qed.

(** C117, in full: the library defines no name but MPI's, so that a program whose names are not MPI's links as it is, whatever else it defines.  Proved: the names of mpi.h
    are MPI's; what the library gives to the linker is MPI's or one of a list; a program that keeps off these names is not disturbed.  Missing: the list is not empty. *)
Theorem C117_header :
  (forall r n, In r t_mpi_h -> (r_item r = Def n \/ exists b, r_item r = Macro n b) -> String.prefix "MPI_" n = true \/ String.prefix "." n = true) /\
  (forall d s, In d declarations -> d_file d = "mpi.h" -> d_name d = C s -> String.prefix "MPI_" s = true \/ s = "mpi_comm_new").
Proof. exact C117_header_lemma. Qed.
Print Assumptions C117_header.
Theorem C117_names_partial : forall m f s, In f sources -> In s (gives m f) -> of_mpi s \/ In s others.
Proof. exact C117_names_lemma. Qed.
Print Assumptions C117_names_partial.
Theorem C117_names_refuted : forall s, In s others -> ~ of_mpi s /\ exists f, In f sources /\ forall m, In s (gives m f).
Proof. exact C117_others_lemma. Qed.
Print Assumptions C117_names_refuted.
Theorem C117_clear : forall m p, (forall s f, In s (own p) -> In f sources -> ~ In s (gives m f)) -> forall s, ~ clash m p s /\ ~ replaced m p s.
Proof. exact C117_clear_lemma. Qed.
Print Assumptions C117_clear.

(** 92 names; a program with main only keeps off them. *)
Example C117_names_ex :
  length others = 92%nat /\ (forall m, clash m (mkProg ["main"] ["MPI_Init"]) "main" -> False) /\ gives ONE_UNDERSCORE "error.c" = ["MPI_Errhandler_set"].
Proof.
  split; [vm_compute; reflexivity|]. split; [|vm_compute; reflexivity].
  intros m H. refine (proj1 (C117_clear m (mkProg ["main"] ["MPI_Init"]) _ "main") H). intros s f [<-|[]] Hf G. destruct (C117_names_partial m f "main" Hf G) as [[E|E]|E]; try discriminate E.
  assert (inb "main" others = false) as X by (vm_compute; reflexivity). apply (inb_In "main" others) in E. congruence.
Qed.

(** C117: a program that calls MPI_Init and defines one of these names, say its own TSint or Type_size, does not link, but for six of them. *)
Theorem C117_clash_refuted : forall m p X, In X others -> ~ In X ["copy_data2"; "Pcopy_data2"; "simpletypes"; "Pack"; "Pack_size"; "Unpack"] ->
  own p = [X] -> In "MPI_Init" (used p) -> clash m p X.
Proof. exact C117_clash_lemma. Qed.
Print Assumptions C117_clash_refuted.

(** Type_size is one. *)
Example C117_clash_ex : clash ONE_UNDERSCORE (mkProg ["Type_size"] ["MPI_Init"; "MPI_Finalize"]) "Type_size".
Proof.
  refine (C117_clash_refuted ONE_UNDERSCORE (mkProg ["Type_size"] ["MPI_Init"; "MPI_Finalize"]) "Type_size" _ _ eq_refl (or_introl eq_refl)).
  - apply (inb_In "Type_size" others). vm_compute. reflexivity.
  - intro H. apply inb_In in H. vm_compute in H. discriminate.
Qed.

(** C117: with one name of its own that is not MPI's, a program can only replace copy_data2 or simpletypes; with these it does, and the linker says nothing: its own routine is then called
    to copy the messages, or its own variable taken for the table of types. *)
Theorem C117_replaced_partial : forall m p X, own p = [X] -> ~ of_mpi X -> replaced m p X -> X = "copy_data2" \/ X = "simpletypes".
Proof. exact C117_replaced_lemma. Qed.
Print Assumptions C117_replaced_partial.
Theorem C117_replaced_refuted : forall m X, X = "copy_data2" \/ X = "simpletypes" -> replaced m (mkProg [X] ["MPI_Init"; "MPI_Isend"; "MPI_Recv"; "MPI_Finalize"]) X.
Proof. exact C117_replaced_refuted_lemma. Qed.
Print Assumptions C117_replaced_refuted.
