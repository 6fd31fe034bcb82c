(** Property theorems about the Fortran side: C70, C71, C78 and C79. *)
From Verif Require Import Base HandleModel TypeModel TypeSpec CopyModel CopyEx SysModel CollModel SysCalls SysEx HeaderModel FortModel FortSpec FortFacts.

(** C70: full statement: for every call a Fortran entry point does what the C routine does on the same arguments, with the
    sentinel variables replaced by the C sentinels.  It holds except when the send buffer of one of seven collectives is MPI_IN_PLACE. *)
Theorem C70_bindings_partial :
  forall c f k, untranslated k <> Some (f_in_place f) -> fexec c f k = exec c (wanted f k).
Proof. exact (fun c f k H => f_equal (exec c) (C70_lemma f k H)). Qed.
Print Assumptions C70_bindings_partial.
(** In the remaining cases the address is passed on as an ordinary buffer, never as the C sentinel. *)
Theorem C70_remaining_cases :
  forall f k, untranslated k = Some (f_in_place f) -> f_in_place f <> MPI_IN_PLACE ->
    binding f k = KColl (match k with FColl k => k | _ => CBarrier end) /\ wanted f k <> binding f k.
Proof. exact C70_untranslated_lemma. Qed.
Print Assumptions C70_remaining_cases.
(** MPI_IN_PLACE, of four bytes, at 100; MPI_ALLREDUCE in place on an INTEGER at 200.  The bytes at 200 should stay as they were;
    they become those of the variable MPI_IN_PLACE. *)
Definition f100 : fort := mkFort 80 90 100.
Definition in_place_sum : fcall := FColl (CAllreduce 100 200 1 (-16) 0).
Theorem C70_in_place_refuted :
  bytes_at [200; 201; 202; 203] (ex_run [KInit; wanted f100 in_place_sum]) = Ok (map ex_mem [200; 201; 202; 203]) /\
  bytes_at [200; 201; 202; 203] (ex_run [KInit; binding f100 in_place_sum]) = Ok (map ex_mem [100; 101; 102; 103]) /\
  map ex_mem [100; 101; 102; 103] <> map ex_mem [200; 201; 202; 203].
Proof. split; [vm_compute; reflexivity|]. split; [vm_compute; reflexivity|]. vm_compute. discriminate. Qed.
Print Assumptions C70_in_place_refuted.
(** Statuses are ignored, or written, according to their address; an in place gather leaves the receive buffer alone. *)
Example C70_ex :
  outs (ex_run [KInit; KIsend 100 1 INTT 0 7 1; binding f100 (FRecv 200 1 (-16) 0 7 1 (80, st0))]) =
    outs (ex_run [KInit; KIsend 100 1 INTT 0 7 1; KRecv 200 1 (-16) 0 7 1 SIgnore]) /\
  outs (ex_run [KInit; KIsend 100 1 INTT 0 7 1; binding f100 (FRecv 200 1 (-16) 0 7 1 (300, st0))]) =
    outs (ex_run [KInit; KIsend 100 1 INTT 0 7 1; KRecv 200 1 (-16) 0 7 1 (SAt st0)]) /\
  bytes_at [200; 201] (ex_run [KInit; binding f100 (FColl (CGather 100 1 (-16) 200 1 (-16) 0))]) = Ok (map ex_mem [200; 201]).
Proof. repeat split; vm_compute; reflexivity. Qed.

(** C71: given that the five type constants name predefined types: MPI_INIT in Fortran initialises the library and reports success if
    the header and the compiler agree with the C side, and aborts if not. *)
Theorem C71_init_fort :
  forall c fv sz s s1,
    MPI_Init s = Ok (tt, s1) -> (forall n, is_int (fv n)) -> (forall n, is_int (sz n)) ->
    (forall n, In n ["MPI_SOURCE"; "MPI_TAG"; "MPI_ERROR"]%string -> fv n <> INT_MIN) ->
    name_types (fsize_real c) (fsize_dprec c) fv ->
    (agree (fsize_real c) (fsize_dprec c) fv sz -> mpi_init_fort c fv sz s = Ok (0, s1)) /\
    (~ agree (fsize_real c) (fsize_dprec c) fv sz -> exists m, mpi_init_fort c fv sz s = Abort m).
Proof. exact C71_lemma. Qed.
Print Assumptions C71_init_fort.
(** The header as shipped and default types of the usual sizes agree; with REAL of 8 bytes they do not, unless configured. *)
Theorem C71_shipped :
  agree 4 8 shipped usual_sizes /\
  let real8 n := if String.eqb n "MPI_REAL" then 8 else if String.eqb n "MPI_COMPLEX" then 16 else usual_sizes n in
  ~ agree 4 8 shipped real8 /\ agree 8 8 shipped real8.
Proof. exact C71_shipped_lemma. Qed.
Print Assumptions C71_shipped.
(** MPI_REAL, MPI_LOGICAL and MPI_COMPLEX are compared by size only: other types of the same size pass. *)
Theorem C71_not_compared :
  let fv n := if String.eqb n "MPI_REAL" then -16 else if String.eqb n "MPI_LOGICAL" then -9 else if String.eqb n "MPI_COMPLEX" then -10 else shipped n in
  (do (r, _) <- mpi_init_fort default_cfg fv usual_sizes ex_start; Ok r) = Ok 0.
Proof. vm_compute. reflexivity. Qed.
Print Assumptions C71_not_compared.
Example C71_ex :
  (do (r, _) <- mpi_init_fort default_cfg shipped usual_sizes ex_start; Ok r) = Ok 0 /\
  (do (r, _) <- mpi_init_fort default_cfg (fun n => if String.eqb n "MPI_TAG" then 3 else shipped n) usual_sizes ex_start; Ok r) = Abort "mpi_init_fort".
Proof. split; vm_compute; reflexivity. Qed.

(** C78: a constant in both headers has one value, no header gives a name twice, and the values are those the model uses:
    the predefined types and the constants compared at initialisation. *)
Theorem C78_headers_agree :
  (forall n v w, In (n, v) mpi_h -> In (n, w) mpif_h -> v = w) /\
  NoDup (map fst mpi_h) /\ NoDup (map fst mpif_h) /\
  (forall fr fd n h s x, In (n, h, s, x) (constants fr fd) -> In (n, h) mpi_h) /\
  (forall n v, In (n, v) compared -> In (n, v) mpif_h) /\
  (forall n, In n measured -> In (n, shipped n) mpif_h).
Proof. exact C78_lemma. Qed.
Print Assumptions C78_headers_agree.
Example C78_ex : In ("MPI_INTEGER8", -35)%string mpi_h /\ In ("MPI_INTEGER8", -35)%string mpif_h.
Proof. split; vm_compute; repeat ((left; reflexivity) || right). Qed.

(** C79: full statement: an entry point whose argument is an INTEGER in the Fortran interface reads and writes that INTEGER only.
    What the entry points with a result of type MPI_Aint or long do instead: the result is right as far as it fits an INTEGER, and the
    following INTEGER is overwritten with its high half. *)
Theorem C79_results_partial :
  forall e a v s s1, e s = Ok (v, s1) -> 0 <= v < TWO64 -> (forall k, 0 <= k < 8 -> s_mem s1 (a + k) <> None) ->
    exists m', store_result e a s = Ok (tt, set_mem s1 m') /\
      integer_at m' a (to_s32 v) /\ integer_at m' (a + 4) (to_s32 (v / 2 ^ 32)) /\ forall x, ~ a <= x < a + 8 -> m' x = s_mem s1 x.
Proof. exact C79_result_lemma. Qed.
Print Assumptions C79_results_partial.
(** If nothing is allocated there, the write is out of bounds. *)
Theorem C79_overrun :
  forall e a v s s1 k, e s = Ok (v, s1) -> 0 <= k < 8 -> s_mem s1 (a + k) = None -> store_result e a s = UB "write outside allocated memory".
Proof. exact C79_overrun_lemma. Qed.
Print Assumptions C79_overrun.
(** What the entry points that read 8 bytes do: the stride gets the following INTEGER as its high half; the block length does not. *)
Theorem C79_hvector_partial :
  forall c s count bl st old b b' d d',
    integer_at (s_mem s) bl b -> integer_at (s_mem s) (bl + 4) b' -> integer_at (s_mem s) st d -> integer_at (s_mem s) (st + 4) d' ->
    mpi_type_hvector c count bl st old s = MPI_Type_create c (THvector count b (d mod 2 ^ 32 + 2 ^ 32 * (d' mod 2 ^ 32)) old) s.
Proof. exact C79_hvector_lemma. Qed.
Print Assumptions C79_hvector_partial.
(** Arrays of INTEGER displacements are read as pairs, twice as many as the count says. *)
Theorem C79_displacements_partial :
  forall c s count a ds new, 0 <= count -> Z.of_nat (length ds) = 2 * count ->
    (forall i d, nth_error ds i = Some d -> integer_at (s_mem s) (a + 4 * Z.of_nat i) d) ->
    new = map (fun i => nth (2 * i) ds 0 mod 2 ^ 32 + 2 ^ 32 * (nth (2 * i + 1) ds 0 mod 2 ^ 32)) (List.seq 0 (Z.to_nat count)) ->
    (forall bls olds, mpi_type_struct c count bls a olds s = MPI_Type_create c (TStruct count bls new olds) s) /\
    (forall bls old, mpi_type_hindexed c count bls a old s = MPI_Type_create c (THindexed count bls new old) s).
Proof. exact C79_arrays_lemma. Qed.
Print Assumptions C79_displacements_partial.

(** INTEGERs 1, 8, 2, 3 at 100.  MPI_TYPE_EXTENT of MPI_INTEGER stored at 100 makes the 8 at 104 a 0, and MPI_TYPE_HVECTOR with block
    length at 100 and stride at 104 makes a stride of 8 + 2 * 2^32; the size of the type is not affected, its extent is. *)
Definition fmem : mem := fun a =>
  if (100 <=? a) && (a <? 116) then Some (nth (Z.to_nat (a - 100)) [1;0;0;0; 8;0;0;0; 2;0;0;0; 3;0;0;0] 0) else ex_mem a.
Definition fstart : sys := set_mem ex_start fmem.
Definition words (s : sys) : list (option Z) := map (s_mem s) [100; 101; 102; 103; 104; 105; 106; 107; 108].
Theorem C79_neighbour_refuted :
  (do (_, s) <- MPI_Init fstart; do (_, t) <- mpi_type_extent default_cfg (-16) 100 s; Ok (words s, words t)) =
  Ok ([Some 1; Some 0; Some 0; Some 0; Some 8; Some 0; Some 0; Some 0; Some 2], [Some 4; Some 0; Some 0; Some 0; Some 0; Some 0; Some 0; Some 0; Some 2]).
Proof. vm_compute. reflexivity. Qed.
Print Assumptions C79_neighbour_refuted.
Theorem C79_stride_refuted :
  (do (_, s) <- MPI_Init fstart;
   do (h, s) <- mpi_type_hvector default_cfg 2 100 104 (-16) s; do (x, _) <- MPI_Type_extent default_cfg h s;
   do (h', s) <- MPI_Type_create default_cfg (THvector 2 1 8 (-16)) s; do (x', _) <- MPI_Type_extent default_cfg h' s; Ok (x, x')) = Ok (8589934604, 12).
Proof. vm_compute. reflexivity. Qed.
Print Assumptions C79_stride_refuted.
(** The hypotheses are met by this memory. *)
Example C79_ex : integer_at fmem 100 1 /\ integer_at fmem 104 8 /\ integer_at fmem 108 2 /\ integer_at fmem 112 3.
Proof.
  assert (K : forall k, 0 <= k < 4 -> k = 0 \/ k = 1 \/ k = 2 \/ k = 3) by (intros; lia).
  repeat split; try (vm_compute; congruence); intros k R; destruct (K k R) as [->|[->|[->| ->]]]; vm_compute; reflexivity.
Qed.
