(** C120, C121 and C122: the text of the C files. *)
From Verif Require Import Base BindModel RetModel LinkModel BuildModel NameModel TextSpec SourceModel SourceSpec BodySpec BodyFacts SourceFacts.
From Coq Require Import Ascii.
#[local] Open Scope string_scope.
#[local] Open Scope list_scope.

(** C120.  Whatever macros are defined, every C file can be read, and its routines are those of the tables of C105 and C109, with the same lines, uses and heads. *)
Theorem C120_routines : forall on f text, In (f, text) c_texts ->
  exists rs, read_file known on text = Some rs /\ map stands rs = in_places on f /\ map heads (filter has_head rs) = in_tables on f.
Proof. exact C120_routines_lemma. Qed.
Print Assumptions C120_routines.
(** No file of the tables is left out but the two that are Fortran. *)
Theorem C120_files : forall f, In f sources \/ In f (map p_file places) \/ In f (map fn_file (library ++ internal)) ->
  In f ["fort.F90"; "mpif.F90"] \/ exists text, In (f, text) c_texts.
Proof. exact C120_files_lemma. Qed.
Print Assumptions C120_files.
(** Only the macros that a file asks about matter, for any text. *)
Theorem C120_macros : forall known on on' lines, (forall n, In n (asked lines) -> on n = on' n) -> read_lines known on lines = read_lines known on' lines.
Proof. exact read_lines_ext. Qed.
Print Assumptions C120_macros.
(** getcount.c holds four routines; recv.c has two more with INFO. *)
Example C120_ex_getcount : exists text, In ("getcount.c", text) c_texts /\
  option_map (map (fun r => (hd_name (ro_head r), ro_first r, ro_last r, ro_uses r))) (read_file known (fun _ => false) text) = Some (in_places (fun _ => false) "getcount.c") /\
  length (in_places (fun _ => false) "getcount.c") = 4%nat /\ length (in_places (fun _ => true) "recv.c") = 7%nat /\ length (in_places (fun _ => false) "recv.c") = 5%nat.
Proof. exists s_getcount_c. split; [do 5 right; left; reflexivity|]. do 3 (split; [vm_compute; reflexivity|]). vm_compute. reflexivity. Qed.
(** What is refused: a comment, a parenthesis, a brace or a conditional that is not closed, and an #else too many; what is read. *)
Example C120_ex_refused :
  read_file [C "g"] (fun _ => false) ["int f(int x)"; "{ /* g( */ return g(x); }"] =
    Some [mkRoutine (mkHead false ("int", 0%nat) (C "f") [(("int", 0%nat), "x")])
            [(2, N (C "return")); (2, N (C "g")); (2, G "("%char); (2, N (C "x")); (2, G ")"%char); (2, G ";"%char)] 1 2 [(2, C "g")]] /\
  read_file [C "g"] (fun _ => false) ["int f(int x)"; "{ /* g( return g(x); }"] = None /\
  read_file [C "g"] (fun _ => false) ["int f(int x)"; "{ return g(x; }"] = None /\
  read_file [C "g"] (fun _ => false) ["int f(int x)"; "{ return g(x);"] = None /\
  read_file [C "g"] (fun _ => false) ["#ifdef A"; "int f(int x)"; "{ return g(x); }"] = None /\
  read_file [C "g"] (fun _ => false) ["#ifdef A"; "#else"; "#else"; "#endif"] = None /\
  read_file [C "g"] (fun _ => false) ["#ifdef A"; "{"; "#endif"] = Some [] /\ read_file [C "g"] (fun _ => true) ["#ifdef A"; "{"; "#endif"] = None.
Proof. do 7 (split; [vm_compute; reflexivity|]). vm_compute. reflexivity. Qed.

(** C121.  Return statements: every routine with an int result is in the table of C74, with its return statements in order, but for those that [other_ints] names. *)
Theorem C121_returns : forall on f text rs r, In (f, text) c_texts -> read_file known on text = Some rs -> In r rs ->
  returns_int r -> ~ In (name_of r) other_ints -> exists l, returns_in r = Some l /\ In (name_of r, l) returns_of.
Proof. exact C121_returns_lemma. Qed.
Print Assumptions C121_returns.
(** Every Fortran entry point stores once in its last argument, what the table says; two have no such argument. *)
Theorem C121_stores : forall on f text rs r a b, In (f, text) c_texts -> read_file known on text = Some rs -> In r rs ->
  hd_name (ro_head r) = F a b -> ~ In a ["mpi_save_fort_pointers"; "mpi_wtime"] -> exists e, stores_in r = Some e /\ In (a, e) ierror_of.
Proof. exact C121_stores_lemma. Qed.
Print Assumptions C121_stores.
(** Every Fortran entry point calls the routine that the table says, with the arguments it says. *)
Theorem C121_bindings : forall on f text rs r a b, In (f, text) c_texts -> read_file known on text = Some rs -> In r rs ->
  hd_name (ro_head r) = F a b -> ~ In a ["mpi_save_fort_pointers"; "mpi_wtime"; "mpi_init_fort"] -> exists t, binding_in r = Some t /\ In t bindings.
Proof. exact C121_bindings_lemma. Qed.
Print Assumptions C121_bindings.
(** The routines called have the parameters of the table. *)
Theorem C121_prototypes : forall on f text rs r n, In (f, text) c_texts -> read_file known on text = Some rs -> In r rs ->
  hd_name (ro_head r) = C n -> In n (map fst prototypes) -> exists l, all_some (fun p => prm_of (fst p)) (hd_params (ro_head r)) = Some l /\ In (n, l) prototypes.
Proof. exact C121_prototypes_lemma. Qed.
Print Assumptions C121_prototypes.
(** All rows of these tables come from the text. *)
Theorem C121_rows :
  let from_text (P : routine -> Prop) := exists f text rs r, In (f, text) c_texts /\ read_file known (String.eqb "TEST_INTERNAL") text = Some rs /\ In r rs /\ P r in
  (forall n l, In (n, l) returns_of -> n <> "mpi_init_fort" -> from_text (fun r => name_of r = n /\ returns_in r = Some l)) /\
  (forall n e, In (n, e) ierror_of -> from_text (fun r => name_of r = n /\ stores_in r = Some e)) /\
  (forall t, In t bindings -> from_text (fun r => binding_in r = Some t)) /\
  (forall n l, In (n, l) prototypes -> from_text (fun r => name_of r = n /\ all_some (fun p => prm_of (fst p)) (hd_params (ro_head r)) = Some l)).
Proof. exact C121_rows_lemma. Qed.
Print Assumptions C121_rows.
(** A binding that passes a pointer where it should pass what it points to is another row. *)
Example C121_ex_binding :
  let at_root (e : string) := option_map (map binding_in) (read_file [C "MPI_Barrier"] (fun _ => false) ["int FC_FUNC(mpi_barrier, MPI_BARRIER)(int *comm, int *ierror)"; "{"; e; "return MPI_SUCCESS; }"]) in
  at_root "*ierror = MPI_Barrier(*comm);" = Some [Some (mkB "mpi_barrier" "MPI_BARRIER" [("comm", Ptr Kint); ("ierror", Ptr Kint)] "MPI_Barrier" [Deref "comm"] "ierror")] /\
  at_root "*ierror = MPI_Barrier(comm);" = Some [Some (mkB "mpi_barrier" "MPI_BARRIER" [("comm", Ptr Kint); ("ierror", Ptr Kint)] "MPI_Barrier" [Same "comm"] "ierror")] /\
  at_root "*comm = MPI_Barrier(*comm);" = Some [None] /\ at_root "*ierror = MPI_Barrier(*comm); *ierror = 0;" = Some [None].
Proof. do 3 (split; [vm_compute; reflexivity|]). vm_compute. reflexivity. Qed.

(** C122, full statement: whatever macros are defined, every name used in a routine is a word of C, a parameter, a variable declared before in an open block, a routine, or a
    name that C116 accounts for, first used no earlier than the table of C116 says and under the same macros.
    Missing: with INFO this fails in probe.c, see [C122_info_refuted]. *)
Theorem C122_names_partial : forall on f text rs r line w, In (f, text) c_texts -> read_file known on text = Some rs -> In r rs -> In (line, w) (words_outside r) ->
  f <> "probe.c" \/ on "INFO" = false ->
  of_routine w = true \/
  exists rows x, NameModel.text_of f = Some rows /\ In x rows /\ r_line x <= line /\ (forall b m, In (b, m) (r_when x) -> on m = b) /\ In w (row_name (r_item x)).
Proof. exact C122_names_lemma. Qed.
Print Assumptions C122_names_partial.
(** Also with INFO, but for two names in MPI_Iprobe; and the types in the heads. *)
Theorem C122_words : forall on f text rs r, In (f, text) c_texts -> read_file known on text = Some rs -> In r rs ->
  (forall line w, In (line, w) (words_outside r) ->
     of_routine w = true \/ in_table on f line w = true \/ (f = "probe.c" /\ name_of r = "MPI_Iprobe" /\ In w ["count"; "datatype"])) /\
  (forall t, In t (types_in r) -> in_table on f (ro_last r) t = true).
Proof. exact C122_words_lemma. Qed.
Print Assumptions C122_words.
(** With INFO, MPI_Iprobe uses two names that are declared nowhere, so that probe.c does not compile (probe.c 31-35). *)
Theorem C122_info_refuted : forall on text, In ("probe.c", text) c_texts -> on "INFO" = true ->
  exists rs r, read_file known on text = Some rs /\ In r rs /\ name_of r = "MPI_Iprobe" /\
    forall w, In w ["count"; "datatype"] -> In (34, w) (words_outside r) /\ of_routine w = false /\ (forall h l, In (h, l) c_names -> ~ In w l) /\
      forall g rows x, In (g, rows) texts -> In x rows -> ~ In w (row_name (r_item x)).
Proof. exact C122_info_lemma. Qed.
Print Assumptions C122_info_refuted.
(** The names of the table are in the lines that it says. *)
Theorem C122_rows : forall f text, In (f, text) c_texts -> exists rows lines, NameModel.text_of f = Some rows /\ logical_lines text = Some lines /\
  forall x w, In x rows -> In w (row_name (r_item x)) -> stands_in lines (r_line x) w = true.
Proof. exact C122_rows_lemma. Qed.
Print Assumptions C122_rows.
(** Blocks, parameters, members and declarations after which a name is known. *)
Example C122_ex_words :
  option_map (map words_outside) (read_file [C "g"] (fun _ => false)
    ["int f(T x)"; "{ int i, *p = x; { int j; j = i; }"; "  return g(j, x.a, p->b, i > c, 5); }"]) = Some [[(3, "g"); (3, "j"); (3, ".a"); (3, ".b"); (3, "c")]] /\
  option_map (map types_in) (read_file [C "g"] (fun _ => false) ["int f(T x)"; "{ int i; }"]) = Some [["T"]].
Proof. split; vm_compute; reflexivity. Qed.
