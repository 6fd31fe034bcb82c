(** C80: the Fortran bindings pass their own arguments. *)
From Verif Require Import Base CopyModel SysModel CollModel SysCalls FortModel FortSpec BindModel BindSpec BindFacts PropsFort.

(** Full statement: every binding calls the C routine of its name with its own arguments in order, each INTEGER by value where C wants a
    value and by address otherwise (the sentinels of [sentinels] being translated), and stores the return code in its last argument; for
    every way of naming symbols.  Not for the two bindings that read a long (C79). *)
Theorem C80_arguments_partial :
  forall b, In b bindings -> ~ In (b_lower b) wide_reads ->
    exists fos, In (b_callee b, fos) prototypes /\
      forall f m addrs e, length addrs = length fos -> has_integers m fos addrs ->
        exists vs, passed f m b (addrs ++ [e]) = Ok vs /\ all_right f m (b_lower b) 0 fos addrs vs /\ code_at b (addrs ++ [e]) = Some e.
Proof. exact C80_lemma. Qed.
Print Assumptions C80_arguments_partial.
(** Every status that is handed out may be ignored. *)
Theorem C80_statuses :
  forall b fos i, In b bindings -> In (b_callee b, fos) prototypes -> nth_error fos i = Some (Ptr Kstatus) ->
    In (b_lower b) ["mpi_get_count"; "mpi_get_elements"]%string \/ sentinel_at (b_lower b) i = OneStatus \/ sentinel_at (b_lower b) i = Statuses.
Proof. exact C80_statuses_lemma. Qed.
Print Assumptions C80_statuses.
(** The routine called has the name of the binding, with four exceptions, the first two of which make no difference. *)
Theorem C80_names :
  (forall b, In b bindings -> lower (b_callee b) = b_lower b \/
     In (b_lower b, b_callee b) [("mpi_ssend", "MPI_Send"); ("mpi_rsend", "MPI_Send"); ("mpi_get_address", "FGet_address"); ("mpi_address", "FGet_address")]%string) /\
  NoDup (map b_lower bindings) /\
  forall c buf n ty d g cm, exec c (KSsend buf n ty d g cm) = exec c (KSend buf n ty d g cm) /\ exec c (KRsend buf n ty d g cm) = exec c (KSend buf n ty d g cm).
Proof. exact C80_names_lemma. Qed.
Print Assumptions C80_names.
(** For compilers that want upper case symbols two routines get one name, and MPI_GET_ADDRESS does not exist. *)
Theorem C80_upper_case_refuted :
  map (fun b => (b_lower b, b_upper b)) (filter (fun b => String.eqb (b_upper b) "MPI_ADDRESS") bindings) =
    [("mpi_get_address", "MPI_ADDRESS"); ("mpi_address", "MPI_ADDRESS")]%string /\
  ~ In "MPI_GET_ADDRESS"%string (map b_upper bindings).
Proof. split; [vm_compute; reflexivity|]. vm_compute. intros H. repeat (destruct H as [H|H]; [discriminate|]). exact H. Qed.
Print Assumptions C80_upper_case_refuted.
(** MPI_TYPE_CONTIGUOUS(count, oldtype, newtype, ierr) with the variables at 100, 108, 500 and 504. *)
Example C80_ex : exists b, In b bindings /\ b_lower b = "mpi_type_contiguous"%string /\ ~ In (b_lower b) wide_reads /\
  has_integers fmem [Val Kint; Val Kint; Ptr Kint] [100; 108; 500] /\ passed f100 fmem b [100; 108; 500; 504] = Ok [1; 2; 500] /\ code_at b [100; 108; 500; 504] = Some 504.
Proof.
  exists (match filter (fun b => String.eqb (b_lower b) "mpi_type_contiguous") bindings with [b] => b | _ => mkB "" "" [] "" [] "" end).
  split; [vm_compute; repeat ((left; reflexivity) || right)|]. split; [vm_compute; reflexivity|]. split; [vm_compute; intros [H|[H|[]]]; discriminate|].
  split; [|split; vm_compute; reflexivity].
  split; [exists 1; apply C79_ex|]. split; [exists 2; apply C79_ex|]. split; exact Logic.I.
Qed.
