(** Property theorems about README, configure and make: C113, C114, C115; and about the #ifdefs of the C files: C109. *)
From Verif Require Import Base HandleModel TypeModel TypeSpec CopyModel CopyEx SysModel CollModel SysCalls SysEx HeaderModel FortModel FortSpec FinitModel FinitSpec LinkModel LinkSpec BuildModel BuildSpec ConfModel ConfSpec ConfFacts.
From Coq Require Import Ascii DecimalString.
#[local] Open Scope string_scope.
#[local] Open Scope list_scope.

(** C113: what README says is supported is there: every name has a routine of C that other files can call, but for two; mpi.h declares it, but for three; Fortran can call it, but for
    thirteen.  Missing from the full statement ([C113_full]): mpi_type_dup is declared and not defined, mpi_type_contigious is misspelt, mpi_init_thread and mpi_info_free
    are not declared. *)
Theorem C113_listed_partial :
  forall n, In n listed -> (in_C n <-> ~ In n no_routine) /\ (in_mpi_h n <-> ~ In n not_declared) /\ (in_Fortran n <-> ~ In n not_in_Fortran).
Proof. exact C113_listed_lemma. Qed.
Print Assumptions C113_listed_partial.
Theorem C113_refuted : ~ C113_full.
Proof. exact C113_refuted_lemma. Qed.
Print Assumptions C113_refuted.
(** README's list is complete but for eight routines. *)
Theorem C113_complete_partial :
  forall f s, In f library -> fn_name f = C s -> prefix "MPI_" s = true -> (In (lower s) listed <-> ~ In (lower s) not_listed).
Proof. exact C113_unlisted_lemma. Qed.
Print Assumptions C113_complete_partial.
(** "make", "make clean" and "make check" have rules.  "make tests" does nothing at all, since there is a directory tests and no rule; "make examples" is an error. *)
Theorem C113_targets_partial :
  forall there,
    (forall t, In t ["all"; "clean"; "check"] -> make_asked there t = Its_rule) /\
    (In "tests" there -> make_asked there "tests" = Nothing_done) /\ (~ In "examples" there -> make_asked there "examples" = No_rule).
Proof. exact C113_targets_lemma. Qed.
Print Assumptions C113_targets_partial.
Example C113_ex :
  In "mpi_abort" listed /\ ~ In "mpi_abort" (no_routine ++ not_declared ++ not_in_Fortran) /\ in_C "mpi_abort" /\ in_mpi_h "mpi_abort" /\ in_Fortran "mpi_abort" /\ ~ in_C "mpi_type_dup" /\
  In "mpi_type_dup" listed /\ In "tests" named_targets /\ In "examples" named_targets.
Proof.
  assert (I : In "mpi_abort" listed) by (apply mem_spec; vm_compute; reflexivity). assert (J : In "mpi_type_dup" listed) by (apply mem_spec; vm_compute; reflexivity).
  assert (N : ~ In "mpi_abort" (no_routine ++ not_declared ++ not_in_Fortran)) by (apply mem_not; vm_compute; reflexivity).
  destruct (C113_listed_partial _ I) as (A & B & D). destruct (C113_listed_partial _ J) as (E & _ & _).
  split; [exact I|]. split; [exact N|]. split; [apply A; intros K; apply N; apply in_or_app; auto|]. split; [apply B; intros K; apply N; apply in_or_app; right; apply in_or_app; auto|].
  split; [apply D; intros K; apply N; apply in_or_app; right; apply in_or_app; auto|]. split; [rewrite E; intros K; apply K; cbn; tauto|]. split; [exact J|]. split; cbn; tauto.
Qed.

(** C114: the sizes asked for with --enable-fort-real=N and --enable-fort-double=N, or 4 and 8, are those the library is compiled with, whatever else is on the command line and in
    which order; type checking is on exactly if --enable-type-checking or --disable-type-checking is there. *)
Theorem C114_sizes :
  forall l r d, size_asked l "fort-real" 4 r -> size_asked l "fort-double" 8 d ->
    exists t, cfg_of l = Some (mkCfg r d t) /\ (t = true <-> said l "type-checking").
Proof. exact C114_sizes_lemma. Qed.
Print Assumptions C114_sizes.
(** So with the options README asks for, a Fortran program can start exactly if the sizes are those of its compiler (wherever it puts the variables), INTEGER and LOGICAL being
    of 4 bytes and COMPLEX two REALs. *)
Theorem C114_init :
  forall l r d base elem s s1, size_asked l "fort-real" 4 r -> size_asked l "fort-double" 8 d ->
    MPI_Init s = Ok (tt, s1) -> (forall a, is_int (elem a)) -> elem "fint" = 4 -> elem "flog" = 4 -> elem "fcomp" = 2 * elem "freal" ->
    exists c, cfg_of l = Some c /\
      (elem "freal" = r /\ elem "fdub" = d -> MPI_INIT_f c base elem s = Ok (0, s1)) /\
      (~ (elem "freal" = r /\ elem "fdub" = d) -> exists m, MPI_INIT_f c base elem s = Abort m).
Proof. exact C114_init_lemma. Qed.
Print Assumptions C114_init.
(** A macro is defined exactly if its feature was asked for, as long as nobody says --disable-X or --enable-X=no; configure defines no other macro because of an option.  Missing from the full
    statement ([C114_full]): --disable-X turns X on as well. *)
Theorem C114_wanted_partial :
  forall l name m, In (name, m) option_macros ->
    (forall p, In p l -> about p name -> exists x a, p = Enable x a /\ a <> Some "no") -> (defines l m <-> wanted l name).
Proof. exact C114_wanted_lemma. Qed.
Print Assumptions C114_wanted_partial.
Theorem C114_said : forall l name m, In (name, m) option_macros -> (defines l m <-> said l name).
Proof. exact C114_said_lemma. Qed.
Print Assumptions C114_said.
Theorem C114_nothing_else : forall l m, defines l m -> In m (map snd option_macros).
Proof. exact C114_nothing_else_lemma. Qed.
Print Assumptions C114_nothing_else.
Theorem C114_refuted : ~ C114_full.
Proof. exact C114_refuted_lemma. Qed.
Print Assumptions C114_refuted.
(** --disable-fort-real and --enable-fort-real without a size define the size as a word that is no number. *)
Theorem C114_no_number :
  forall l x, last_said l "fort-real" x -> (exists n, x = Disable n) \/ (exists n, x = Enable n None) -> cfg_of l = None.
Proof. exact C114_no_number_lemma. Qed.
Print Assumptions C114_no_number.
(** Every line that asks for one of these macros comes after config.h has been read, in the library and in the tests; and the table of these lines agrees with that of C110. *)
Theorem C114_seen : forall f n m, In (f, n, m) asking_lines -> config_before f n.
Proof. exact C114_seen_lemma. Qed.
Print Assumptions C114_seen.
Theorem C114_lines : forall f l, In (f, l) includes -> l = map snd (filter (fun i => String.eqb (fst (fst i)) f) include_lines).
Proof. exact C114_lines_lemma. Qed.
Print Assumptions C114_lines.
(** README's example; a command line that names a size twice, once with another separator; and one that switches off type checking.  A compiler with REALs of 16 and DOUBLE PRECISION of 32 bytes. *)
Definition readme_options : list opt := [Enable "fort-real" (Some "16"); Enable "fort-double" (Some "32")].
Definition more_options : list opt := [Enable "fort-real" (Some "16"); Enable "info" None; Enable "fort_real" (Some "8")].
Definition big (a : string) : Z := if String.eqb a "freal" then 16 else if String.eqb a "fdub" then 32 else if String.eqb a "fcomp" then 32 else 4.
Example C114_ex :
  size_asked readme_options "fort-real" 4 16 /\ size_asked readme_options "fort-double" 8 32 /\ size_asked more_options "fort-real" 4 8 /\ size_asked more_options "fort-double" 8 8 /\
  cfg_of [] = Some default_cfg /\ cfg_of readme_options = Some (mkCfg 16 32 false) /\ cfg_of more_options = Some (mkCfg 8 8 false) /\
  cfg_of [Disable "type-checking"] = Some (mkCfg 4 8 true) /\ cfg_of [Disable "fort-real"] = None /\
  (do (r, _) <- MPI_INIT_f (mkCfg 16 32 false) (fun _ => 0) big ex_start; Ok r) = Ok 0 /\ MPI_INIT_f default_cfg (fun _ => 0) big ex_start = Abort "mpi_init_fort".
Proof.
  assert (A : forall a b, shell_name a = shell_name b -> alike a b) by (intros a b; apply alike_spec).
  assert (B : forall a b, String.eqb (shell_name a) (shell_name b) = false -> ~ alike a b) by (intros a b E K; apply alike_spec in K; rewrite K, String.eqb_refl in E; discriminate).
  split; [right; exists "fort-real", 16%N; split; [|reflexivity]; exists [], [Enable "fort-double" (Some "32")]; split; [reflexivity|]; split;
    [apply A; reflexivity|intros p [<-|[]]; apply B; vm_compute; reflexivity]|].
  split; [right; exists "fort-double", 32%N; split; [|reflexivity]; exists [Enable "fort-real" (Some "16")], []; split; [reflexivity|]; split; [apply A; reflexivity|intros p []]|].
  split; [right; exists "fort_real", 8%N; split; [|reflexivity]; exists [Enable "fort-real" (Some "16"); Enable "info" None], []; split; [reflexivity|]; split; [apply A; reflexivity|intros p []]|].
  split; [left; split; [|reflexivity]; intros p [<-|[<-|[<-|[]]]]; apply B; vm_compute; reflexivity|].
  do 6 (split; [vm_compute; reflexivity|]). vm_compute. reflexivity.
Qed.

(** C115: make, doing one thing after the other, builds the library and the module in every directory with the sources and what configure made. *)
Theorem C115_one : proper make_all /\ forall there, ready there -> built make_all there.
Proof. exact C115_one_lemma. Qed.
Print Assumptions C115_one.
(** With any number of jobs it does if mpi.mod is there already, or mpif.F90 has been compiled by the time make looks for mpi.mod; otherwise it ends with an error.  Missing from the full
    statement ([C115_full]): nothing makes make wait, since no rule makes mpi.mod. *)
Theorem C115_any_partial :
  forall tr there, proper tr -> ready there ->
    (In "mpi.mod" there \/ before (Run "mpif.o") (Look "mpi.mod") tr -> built tr there) /\
    (~ In "mpi.mod" there -> before (Look "mpi.mod") (Run "mpif.o") tr -> perform tr there = inr "mpi.mod").
Proof. exact C115_any_lemma. Qed.
Print Assumptions C115_any_partial.
Theorem C115_refuted : proper hasty /\ ready files_there /\ perform hasty files_there = inr "mpi.mod" /\ ~ C115_full.
Proof. exact C115_refuted_lemma. Qed.
Print Assumptions C115_refuted.
(** Wherever configure was called, the files of the library find what they include, and the tests find config.h and the module. *)
Theorem C115_found :
  forall c, c = contents \/ c = contents_together ->
    (forall f hs h, In (f, hs) includes \/ In (f, hs) fortran_needs -> In h hs -> In h (map fst c_headers) \/ found c library_dirs h) /\
    (forall h, In h ["config.h"; "mpi.mod"] -> found c tests_dirs h).
Proof. exact C115_found_lemma. Qed.
Print Assumptions C115_found.
(** If configure was called in the directory of the sources, the tests find all they include.  If it was called elsewhere they do not find mpi.h, so that "make check" and "make distcheck" fail. *)
Theorem C115_tests_partial :
  (forall f hs h, In (f, hs) tests_need -> In h hs -> In h (map fst c_headers) \/ found contents_together tests_dirs h) /\
  (forall h, In h ["mpi.h"; "mpif.h"; "mpiP.h"; "type.h"] -> ~ found contents tests_dirs h).
Proof. exact C115_tests_lemma. Qed.
Print Assumptions C115_tests_partial.
Example C115_ex :
  length make_all = 53%nat /\ proper make_all /\ before (Run "mpif.o") (Look "mpi.mod") make_all /\ ~ In "mpi.mod" files_there /\ built make_all files_there /\
  proper hasty /\ before (Look "mpi.mod") (Run "mpif.o") hasty.
Proof.
  split; [vm_compute; reflexivity|]. split; [exact make_all_proper|]. split; [apply earlier_spec; vm_compute; reflexivity|]. split; [apply mem_not; vm_compute; reflexivity|].
  split; [apply C115_one; apply C115_refuted|]. split; [apply C115_refuted|]. apply earlier_spec. vm_compute. reflexivity.
Qed.

(** C109: the macros the table of uses names are those of the #ifdefs around the lines: a use, and a routine, needs a macro exactly if it stands between the #ifdef for it and the #endif; and uses stand in
    their routines. *)
Theorem C109_when :
  forall p, In p places ->
    (forall u w, In u (p_uses p) -> (needs p u w <-> only_with (p_file p) (u_line u) w)) /\
    (forall w, p_when p = Some w <-> only_with (p_file p) (p_first p) w) /\ (forall w, p_when p = Some w <-> only_with (p_file p) (p_last p) w) /\
    (forall u, In u (p_uses p) -> p_first p <= u_line u <= p_last p).
Proof. exact C109_when_lemma. Qed.
Print Assumptions C109_when.
Theorem C109_regions : forall f w a b, In (f, w, a, b) regions -> In w (map snd option_macros) -> In (f, a, w) asking_lines.
Proof. exact C109_regions_lemma. Qed.
Print Assumptions C109_regions.
Example C109_when_ex : only_with "recv.c" 102 "INFO" /\ ~ only_with "recv.c" 104 "INFO" /\ In ("recv.c", 101, "INFO") asking_lines.
Proof.
  split; [exists 101, 103; split; [unfold regions; cbn [In]; tauto|lia]|]. split.
  - intros H. apply withs_spec in H. apply mem_spec in H. vm_compute in H. discriminate.
  - apply (C109_regions _ _ 101 103); [unfold regions; cbn [In]; tauto|cbn; tauto].
Qed.
