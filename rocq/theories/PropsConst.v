(** C83 and C84: the constants, the handle conversions, and the objects that are not kept. *)
From Verif Require Import Base HandleModel TypeModel CopyModel CopyEx SysModel CollModel SysCalls SysEx MiscModel RetModel HeaderModel FortFacts ConstSpec ConstFacts StubModel.

(** C83, full statement: in each header, constants of one kind - types, special ranks, tags, thread levels, communicators, groups, error
    handlers, open modes, fields of a status, error classes, operations - have different values unless they are synonyms.  It holds for
    all kinds but the last two. *)
Theorem C83_told_apart_partial :
  forall h kind, h = mpi_h \/ h = mpif_h -> In kind kept_apart -> told_apart h kind.
Proof. exact C83_lemma. Qed.
Print Assumptions C83_told_apart_partial.
(** No error class is MPI_SUCCESS; the special ranks and tags are no valid ones; a predefined type is no handle of a created one; the thread
    levels increase. *)
Theorem C83_values :
  forall h n v, h = mpi_h \/ h = mpif_h -> In (n, v) h ->
    (In n error_names -> v < 0) /\ (n = "MPI_SUCCESS"%string -> v = 0) /\ (In n rank_names -> v < 0) /\ (n = "MPI_ANY_TAG"%string -> v < 0) /\
    (In n type_names -> n = "MPI_DATATYPE_NULL"%string \/ v < 0) /\ (forall i, nth_error level_names i = Some n -> v = Z.of_nat i).
Proof. exact C83_values_lemma. Qed.
Print Assumptions C83_values.
(** Every constant is of one of the kinds. *)
Theorem C83_all_constants :
  forall n, In n (map fst mpi_h ++ map fst mpif_h) -> In n (concat (kept_apart ++ lumped) ++ other_names).
Proof. exact C83_cover_lemma. Qed.
Print Assumptions C83_all_constants.
(** All error classes are -1, and all operations are MPI_OP_NULL. *)
Theorem C83_errors_refuted :
  ~ told_apart mpi_h error_names /\ ~ told_apart mpif_h error_names /\
  forall n, In n error_names -> In (n, -1) mpi_h.
Proof.
  assert (A : forall h, In ("MPI_ERR_TAG", -1)%string h -> In ("MPI_ERR_RANK", -1)%string h -> ~ told_apart h error_names).
  { intros h T R A. specialize (A "MPI_ERR_TAG" "MPI_ERR_RANK" (-1) (-1) ltac:(vm_compute; tauto) ltac:(vm_compute; tauto) T R eq_refl)%string.
    unfold synonyms in A. destruct A as [A|[[A _]|[A _]]]; discriminate. }
  split; [apply A; vm_compute; tauto|]. split; [apply A; vm_compute; tauto|].
  intros n I. repeat (destruct I as [I|I]; [subst n; vm_compute; tauto|]). destruct I.
Qed.
Print Assumptions C83_errors_refuted.
Theorem C83_operations_refuted :
  ~ told_apart mpi_h op_names /\ ~ told_apart mpif_h op_names /\ forall n, In n op_names -> In (n, 0) mpi_h.
Proof.
  assert (A : forall h, In ("MPI_SUM", 0)%string h -> In ("MPI_OP_NULL", 0)%string h -> ~ told_apart h op_names).
  { intros h T R A. specialize (A "MPI_SUM" "MPI_OP_NULL" 0 0 ltac:(vm_compute; tauto) ltac:(vm_compute; tauto) T R eq_refl)%string.
    unfold synonyms in A. destruct A as [A|[[A _]|[A _]]]; discriminate. }
  split; [apply A; vm_compute; tauto|]. split; [apply A; vm_compute; tauto|].
  intros n I. repeat (destruct I as [I|I]; [subst n; vm_compute; tauto|]). destruct I.
Qed.
Print Assumptions C83_operations_refuted.
(** The calls use the values the headers give to a program. *)
Theorem C83_used_as_declared :
  forall h n v, h = mpi_h \/ h = mpif_h -> In (n, v)
  [ ("MPI_COMM_WORLD", MPI_COMM_WORLD); ("MPI_COMM_NULL", MPI_COMM_NULL); ("MPI_REQUEST_NULL", MPI_REQUEST_NULL);
    ("MPI_DATATYPE_NULL", MPI_DATATYPE_NULL); ("MPI_ANY_TAG", MPI_ANY_TAG); ("MPI_ANY_SOURCE", MPI_ANY_SOURCE);
    ("MPI_PROC_NULL", MPI_PROC_NULL); ("MPI_ROOT", MPI_ROOT); ("MPI_UNDEFINED", MPI_UNDEFINED); ("MPI_GROUP_NULL", MPI_GROUP_NULL);
    ("MPI_GROUP_EMPTY", MPI_GROUP_EMPTY); ("MPI_MAX_ERROR_STRING", MPI_MAX_ERROR_STRING);
    ("MPI_MAX_PROCESSOR_NAME", MPI_MAX_PROCESSOR_NAME); ("MPI_MAX_LIBRARY_VERSION_STRING", MPI_MAX_LIBRARY_VERSION_STRING);
    ("MPI_SUCCESS", MPI_SUCCESS) ]%string
  -> In (n, v) h /\ forall w, In (n, w) h -> w = v.
Proof.
  intros h n v H I. cbn [In] in I. repeat (destruct I as [I|I]; [injection I as <- <-; apply declared_once; destruct H; subst h; vm_compute; reflexivity|]). destruct I.
Qed.
Print Assumptions C83_used_as_declared.
Example C83_ex : In rank_names kept_apart /\ In "MPI_ROOT"%string rank_names /\ In ("MPI_ROOT"%string, -3) mpi_h /\ In ("MPI_PROC_NULL"%string, -2) mpif_h /\
  nth_error level_names 3 = Some "MPI_THREAD_MULTIPLE"%string /\ In ("MPI_THREAD_MULTIPLE"%string, 3) mpif_h.
Proof. repeat split; vm_compute; tauto. Qed.

(** C84, full statement: converting a handle to the other language and back gives the handle; a created operation or info object is not the
    null handle, and freeing it leaves the null handle; after MPI_Errhandler_set(comm, MPI_ERRORS_RETURN) an error is returned.
    Proved: the conversions, for all numbers, and what freeing leaves. *)
Theorem C84_conversions :
  forall h, MPI_Comm_f2c (MPI_Comm_c2f h) = h /\ MPI_Comm_c2f (MPI_Comm_f2c h) = h /\
    MPI_Group_f2c (MPI_Group_c2f h) = h /\ MPI_Group_c2f (MPI_Group_f2c h) = h /\
    MPI_Request_f2c (MPI_Request_c2f h) = h /\ MPI_Request_c2f (MPI_Request_f2c h) = h /\
    MPI_Op_f2c (MPI_Op_c2f h) = h /\ MPI_Op_c2f (MPI_Op_f2c h) = h.
Proof. intros h. repeat split. Qed.
Print Assumptions C84_conversions.
(** A Fortran program may use the numbers of C as they are - a constant of both headers keeps its value. *)
Theorem C84_constants :
  forall n v w, In (n, v) mpi_h -> In (n, w) mpif_h ->
    (In n comm_names -> MPI_Comm_c2f v = w) /\ (In n group_names -> MPI_Group_c2f v = w) /\ (In n op_names -> MPI_Op_c2f v = w) /\
    (n = "MPI_REQUEST_NULL"%string -> MPI_Request_c2f v = w).
Proof.
  intros n v w Hv Hw. assert (v = w) by exact (proj1 C78_lemma n v w Hv Hw). subst w. repeat split.
Qed.
Print Assumptions C84_constants.
Theorem C84_objects_partial :
  forall info op commute old old',
    MPI_Info_create old = (0, info) -> MPI_Op_create commute old' = (0, op) ->
    In ("MPI_INFO_NULL"%string, snd (MPI_Info_free info)) mpi_h /\ In ("MPI_OP_NULL"%string, snd (MPI_Op_free op)) mpi_h.
Proof.
  intros info op cm o o' A B. injection A as A. injection B as B. subst. split; vm_compute; tauto.
Qed.
Print Assumptions C84_objects_partial.
(** They all say that they succeeded, and the call that sets a handler leaves the library as it was. *)
Theorem C84_codes :
  forall commute info old key value comm handler s, In ("MPI_SUCCESS"%string, 0) mpi_h /\
    fst (MPI_Info_create old) = 0 /\ MPI_Info_set info key value = 0 /\ fst (MPI_Info_free old) = 0 /\ fst (MPI_Op_create commute old) = 0 /\ fst (MPI_Op_free old) = 0 /\
    MPI_Errhandler_set comm handler s = Ok (0, s).
Proof. intros. split; [vm_compute; tauto|]. repeat split. Qed.
Print Assumptions C84_codes.
(** What is created is the null handle. *)
Theorem C84_created_refuted :
  forall old commute f, In ("MPI_INFO_NULL"%string, snd (MPI_Info_create old)) mpi_h /\ In ("MPI_OP_NULL"%string, snd (MPI_Op_create commute old)) mpi_h /\
    In ("MPI_OP_NULL"%string, CollModel.MPI_Op_create f commute) mpi_h.
Proof. intros. repeat split; vm_compute; tauto. Qed.
Print Assumptions C84_created_refuted.
(** No call does anything else for a handler set before: the call below, a send to rank 1, ends the program. *)
Theorem C84_handler_has_no_effect :
  forall c k comm handler s, (do (_, s') <- MPI_Errhandler_set comm handler s; exec c k s') = exec c k s.
Proof. intros. reflexivity. Qed.
Print Assumptions C84_handler_has_no_effect.
Theorem C84_errors_return_refuted :
  In ("MPI_ERRORS_RETURN"%string, -1) mpi_h /\
  (do (_, s) <- MPI_Errhandler_set 1 (-1) (ex_s [KInit]); exec default_cfg (KSend 100 1 INTT 1 5 1) s) = Abort "MPI_Isend: send to".
Proof. split; [vm_compute; tauto|]. vm_compute. reflexivity. Qed.
Print Assumptions C84_errors_return_refuted.
Example C84_ex : MPI_Info_create 77 = (0, 0) /\ MPI_Op_create 1 77 = (0, 0) /\ MPI_Op_free 77 = (0, 77) /\
  In ("MPI_COMM_WORLD"%string, 1) mpi_h /\ In ("MPI_COMM_WORLD"%string, 1) mpif_h /\ In "MPI_COMM_WORLD"%string comm_names.
Proof. repeat split; vm_compute; tauto. Qed.
