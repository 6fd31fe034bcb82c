(** Property theorems about freed handles, the end of the program and the version: C94, C95, C96; and C79 for each entry point. *)
From Verif Require Import Base TypeModel CopyModel CopyEx SysModel CollModel SysCalls SysSpec SysReach SysFinal SysEx FlowSpec HeaderModel MiscModel FortModel FortSpec StubModel ExitSpec ExitFacts RestFacts.

(** C79, each entry point with a 64-bit result: the result goes into two INTEGERs, and nothing else changes but what the C call changes. *)
Theorem C79_each_entry_point :
  forall (c : cfg) (n ty cm loc : Z),
    writes_wide (mpi_pack_size c n ty cm) (MPI_Pack_size c n ty cm) /\ writes_wide (mpi_type_extent c ty) (MPI_Type_extent c ty) /\
    writes_wide (mpi_type_lb c ty) (MPI_Type_lb c ty) /\ writes_wide (mpi_type_ub c ty) (MPI_Type_ub c ty) /\
    writes_wide (mpi_get_address loc) (ret loc) /\ writes_wide (mpi_address loc) (ret loc).
Proof. exact C79_each_lemma. Qed.
Print Assumptions C79_each_entry_point.
Theorem C79_two_names : forall c count bl st old, mpi_type_create_hvector c count bl st old = mpi_type_hvector c count bl st old.
Proof. exact (fun c count bl st old => eq_refl). Qed.
Print Assumptions C79_two_names.
(** An address above 2^32 stored at 100: low half at 100, high half at 104. *)
Example C79_address_ex :
  (do (_, s) <- MPI_Init ex_start; do (_, t) <- mpi_address 4294967301 100 s; Ok (map (s_mem t) [100; 101; 104; 105; 108])) =
  (do (_, s) <- MPI_Init ex_start; Ok [Some 5; Some 0; Some 1; Some 0; s_mem s 108]).
Proof. vm_compute. reflexivity. Qed.

(** C94: full statement: after a free call the caller's variable is the null handle of its kind.
    So it is for communicators, requests, groups, info objects, and for operations that MPI_Op_create made; missing: datatypes. *)
Theorem C94_freed_is_null_partial :
  forall (c : cfg) (s : sys),
    (forall h o s', exec c (KCommFree h) s = Ok (o, s') -> exists ws wr, o = VFree MPI_COMM_NULL ws wr) /\
    (forall h o s', exec c (KRequestFree h) s = Ok (o, s') -> o = VInt MPI_REQUEST_NULL) /\
    (forall g, MPI_Group_free g = MPI_GROUP_NULL).
Proof. exact C94_frees_lemma. Qed.
Print Assumptions C94_freed_is_null_partial.
Theorem C94_nulls_of_the_headers :
  In ("MPI_COMM_NULL"%string, MPI_COMM_NULL) mpi_h /\ In ("MPI_REQUEST_NULL"%string, MPI_REQUEST_NULL) mpi_h /\ In ("MPI_GROUP_NULL"%string, MPI_GROUP_NULL) mpi_h /\
  In ("MPI_DATATYPE_NULL"%string, MPI_DATATYPE_NULL) mpi_h /\
  (forall old, In ("MPI_INFO_NULL"%string, snd (MPI_Info_free old)) mpi_h) /\
  (forall commute old, In ("MPI_OP_NULL"%string, snd (MPI_Op_free (snd (StubModel.MPI_Op_create commute old)))) mpi_h).
Proof. do 4 (split; [cbn; tauto|]). split; intros; cbn; tauto. Qed.
Print Assumptions C94_nulls_of_the_headers.
(** Freeing a datatype never changes the variable: it keeps a handle that leads nowhere. *)
Theorem C94_datatype_variable_kept : forall (c : cfg) (s : sys) (h : Z) (o : out) (s' : sys), exec c (KTypeFree h) s = Ok (o, s') -> o = VInt h.
Proof. exact C94_type_lemma. Qed.
Print Assumptions C94_datatype_variable_kept.
Theorem C94_freed_is_null_refuted :
  (exists s, ex_run [KInit; KTypeCreate (TContiguous 2 INTT); KTypeFree 2] = Ok ([VUnit; VInt 2; VInt 2], s)) /\ 2 <> MPI_DATATYPE_NULL /\
  ex_run [KInit; KTypeCreate (TContiguous 2 INTT); KTypeFree 2; KTypeFree 2] = UB "dangling datatype".
Proof. split; [eexists; vm_compute; reflexivity|]. split; [discriminate|vm_compute; reflexivity]. Qed.
Print Assumptions C94_freed_is_null_refuted.
Example C94_ex :
  (exists s, ex_run [KInit; KCommDup 1; KIrecv 100 1 INTT 0 5 2; KRequestFree 3; KCommFree 2] =
    Ok ([VUnit; VInt 2; VInt 3; VInt MPI_REQUEST_NULL; VFree MPI_COMM_NULL None (Some 1)], s)).
Proof. eexists. vm_compute. reflexivity. Qed.

(** C95: full statement: a program that the library ends early looks failed to whoever started it.
    Every exit() of the library itself is one of six, none of which looks like success; so for every call in every state, and for
    whole programs.  Missing: MPI_Abort, where it depends on the user's code. *)
Theorem C95_own_exits :
  forall (c : cfg) (k : call) (s : sys) (n : Z) (w : string), exec c k s = Exit n w -> In (n, w) exits /\ status_seen n <> 0.
Proof. exact C95_exit_lemma. Qed.
Print Assumptions C95_own_exits.
Theorem C95_programs_partial :
  forall (c : cfg) (ks : list call) (s : sys) (n : Z) (w : string), snd (run c ks s) = Exit n w -> In (n, w) exits /\ status_seen n <> 0.
Proof. exact C95_run_lemma. Qed.
Print Assumptions C95_programs_partial.
(** MPI_Abort ends the program in every state, whatever the communicator; it looks failed unless 256 divides the code. *)
Theorem C95_abort :
  forall (comm code : Z) (s : sys), MPI_Abort comm code s = Exit code "MPI_Abort" /\ (status_seen code <> 0 <-> ~ (256 | code)).
Proof. exact C95_abort_lemma. Qed.
Print Assumptions C95_abort.
Theorem C95_abort_refuted : MPI_Abort 1 256 ex_start = Exit 256 "MPI_Abort" /\ status_seen 256 = 0.
Proof. split; [vm_compute; reflexivity|reflexivity]. Qed.
Print Assumptions C95_abort_refuted.
(** An exit of the library: an uncommitted type is sent; the parent sees 255. *)
Example C95_ex :
  snd (run default_cfg [KInit; KTypeCreate (TContiguous 2 INTT); KIrecv 100 2 INTT 0 5 1; KIsend 200 1 2 0 5 1] ex_start) = Exit (-1) "Type not committed" /\ status_seen (-1) = 255.
Proof. split; [vm_compute; reflexivity|reflexivity]. Qed.

(** C96: full statement: the version reported at run time is the one both headers announce.  It is for mpif.h; mpi.h announces none. *)
Theorem C96_version_partial :
  In ("MPI_VERSION"%string, fst MPI_Get_Version) mpif_h /\ In ("MPI_SUBVERSION"%string, snd MPI_Get_Version) mpif_h.
Proof. split; cbn; tauto. Qed.
Print Assumptions C96_version_partial.
Theorem C96_version_refuted : ~ In "MPI_VERSION"%string (map fst mpi_h) /\ ~ In "MPI_SUBVERSION"%string (map fst mpi_h).
Proof. split; intros H; cbn in H; repeat (destruct H as [H|H]; [discriminate|]); exact H. Qed.
Print Assumptions C96_version_refuted.
(** C84: setting a key of an info object succeeds for all arguments (and keeps nothing). *)
Theorem C84_info_set : forall info key value, In ("MPI_SUCCESS"%string, MPI_Info_set info key value) mpi_h.
Proof. intros. cbn. tauto. Qed.
Print Assumptions C84_info_set.
