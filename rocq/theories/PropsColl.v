(** Property theorems about collectives: C56 to C60. *)
From Verif Require Import Base HandleExact TypeModel TypeSpec TypeProofs CopyModel CopySpec CopyEx SysModel CollModel SysCalls SysSpec SysLog SysReach SysEx CollSpec CollFacts.

(** After MPI_Init and the creation of datatype 2, a committed vector of two ints with a gap. *)
Definition h_coll : list call := [KInit; KTypeCreate (TVector 2 1 2 INTT); KTypeCommit 2].
Definition int_d : typestruct := pre1 4 2.
Lemma int_d_typed : typed default_cfg int_d 4.
Proof. split; [apply wfb_ok|]; vm_compute; reflexivity. Qed.
Lemma bufs_are_ok n f S D : forallb (inb n) (reads S D) = true -> forallb (inb n) D = true ->
  forallb (fun r => forallb (apartb r) D) (reads S D) = true -> pairb D = true -> buffers_ok (flat n f) S D.
Proof. intros H1 H2 H3 H4. split; [apply flat_live; auto|]. split; [apply flat_live; auto|]. split; [apply all_apart_ok; auto|apply pairwise_ok; auto]. Qed.
(** Two vectors at 100 are a message for four ints at [dst]. *)
Lemma coll_message dst : In dst [500; 540] ->
  message default_cfg (ex_a h_coll) 100 2 2 dst 4 INTT 4
    [(100, 4); (108, 4); (112, 4); (120, 4)] [(dst, 4); (dst + 4, 4); (dst + 8, 4); (dst + 12, 4)].
Proof.
  intros H. constructor; [|unfold cfg_ok; cbn; lia|change (a_mem (ex_a h_coll)) with ex_mem; apply flat_ok; unfold TWO64; lia|].
  - exists ex_vec, 12, int_d. split; [vm_compute; reflexivity|]. split; [vm_compute; reflexivity|].
    split; [assert (V := proj1 ex_vec_typed); assert (C := int_d_typed); constructor; try exact V; try exact C; vm_compute; congruence|].
    split; [discriminate|]. split; [apply fits_ok; vm_compute; reflexivity|]. split; [apply fits_ok; vm_compute; reflexivity|].
    split; [vm_compute; reflexivity|]. destruct H as [<-|[<-|[]]]; vm_compute; reflexivity.
  - change (a_mem (ex_a h_coll)) with ex_mem. destruct H as [<-|[<-|[]]]; apply bufs_are_ok; vm_compute; reflexivity.
Qed.

(** C56: Reduce to root 0, Allreduce, Scan and Reduce_scatter bring the contribution (layout S) to the result (layout D), the same
    way for every operation, and change nothing else.  An operation is an opaque number: no user function is kept or called. *)
Theorem C56_reductions :
  forall (c : cfg) (tj : Z -> tjunk) (s : sys) (a : astate) (sb n ty rb ed : Z) S D ns,
    reach c tj s a -> message c a sb n ty rb n ty ed S D -> sb <> MPI_IN_PLACE ->
    exists s', only_memory s s' /\ same_domain (s_mem s) (s_mem s') /\ copied (s_mem s) (s_mem s') S D /\
      forall op k, In k [CReduce sb rb n ty op 0; CAllreduce sb rb n ty op; CScan sb rb n ty op; CReduceScatter sb rb (n :: ns) ty op] ->
        exec c (KColl k) s = Ok (VUnit, s').
Proof. exact (@C56_lemma). Qed.
Print Assumptions C56_reductions.
Theorem C56_operations_opaque : forall f g commute commute', MPI_Op_create f commute = MPI_Op_create g commute'.
Proof. reflexivity. Qed.
Print Assumptions C56_operations_opaque.
Example C56_ex : reach default_cfg ex_tj (ex_s h_coll) (ex_a h_coll) /\
  message default_cfg (ex_a h_coll) 100 2 2 600 2 2 12 [(100, 4); (108, 4); (112, 4); (120, 4)] [(600, 4); (608, 4); (612, 4); (620, 4)].
Proof.
  split; [apply ex_reach; vm_compute; reflexivity|].
  constructor; [|unfold cfg_ok; cbn; lia|change (a_mem (ex_a h_coll)) with ex_mem; apply flat_ok; unfold TWO64; lia|].
  - exists ex_vec, 12, ex_vec. split; [vm_compute; reflexivity|]. split; [vm_compute; reflexivity|].
    split; [assert (V := proj1 ex_vec_typed); constructor; try exact V; vm_compute; congruence|].
    split; [discriminate|]. split; [apply fits_ok; vm_compute; reflexivity|]. split; [apply fits_ok; vm_compute; reflexivity|].
    split; vm_compute; reflexivity.
  - change (a_mem (ex_a h_coll)) with ex_mem. apply bufs_are_ok; vm_compute; reflexivity.
Qed.

(** C57: Alltoall, Gather, Allgather and Scatter deliver the message. *)
Theorem C57_plain :
  forall (c : cfg) (tj : Z -> tjunk) (s : sys) (a : astate) (sb sn st rb rn rt ed : Z) S D,
    reach c tj s a -> message c a sb sn st rb rn rt ed S D ->
    exists s', only_memory s s' /\ same_domain (s_mem s) (s_mem s') /\ copied (s_mem s) (s_mem s') S D /\
      exec c (KColl (CAlltoall sb sn st rb rn rt)) s = Ok (VUnit, s') /\
      (sb <> MPI_IN_PLACE -> exec c (KColl (CGather sb sn st rb rn rt 0)) s = Ok (VUnit, s') /\ exec c (KColl (CAllgather sb sn st rb rn rt)) s = Ok (VUnit, s')) /\
      (rb <> MPI_IN_PLACE -> exec c (KColl (CScatter sb sn st rb rn rt 0)) s = Ok (VUnit, s')).
Proof. exact (@C57_plain_lemma). Qed.
Print Assumptions C57_plain.
Example C57_plain_ex : reach default_cfg ex_tj (ex_s h_coll) (ex_a h_coll) /\
  message default_cfg (ex_a h_coll) 100 2 2 500 4 INTT 4 [(100, 4); (108, 4); (112, 4); (120, 4)] [(500, 4); (500 + 4, 4); (500 + 8, 4); (500 + 12, 4)].
Proof. split; [apply ex_reach; vm_compute; reflexivity|apply coll_message; left; reflexivity]. Qed.
(** Alltoallw: displacements in bytes. *)
Theorem C57_alltoallw :
  forall (c : cfg) (tj : Z -> tjunk) (s : sys) (a : astate) (sb sn : Z) sns (sd : Z) sds (st : Z) sts (rb rn : Z) rns (rd : Z) rds (rt : Z) rts ed S D,
    reach c tj s a -> message c a (sb + sd) sn st (rb + rd) rn rt ed S D -> 0 <= sb + sd < TWO64 -> 0 <= rb + rd < TWO64 ->
    exists s', only_memory s s' /\ same_domain (s_mem s) (s_mem s') /\ copied (s_mem s) (s_mem s') S D /\
      exec c (KColl (CAlltoallw sb (sn :: sns) (sd :: sds) (st :: sts) rb (rn :: rns) (rd :: rds) (rt :: rts))) s = Ok (VUnit, s').
Proof. exact (@C57_alltoallw_lemma). Qed.
Print Assumptions C57_alltoallw.
Example C57_alltoallw_ex : message default_cfg (ex_a h_coll) (140 + (-40)) 2 2 (500 + 40) 4 INTT 4
  [(100, 4); (108, 4); (112, 4); (120, 4)] [(540, 4); (540 + 4, 4); (540 + 8, 4); (540 + 12, 4)].
Proof. apply coll_message. right. left. reflexivity. Qed.
(** Gatherv, Allgatherv, Scatterv, Alltoallv.  Full statement: as below without the [is_int] premises.  Missing: displacements
    of 2^31 bytes or more. *)
Theorem C57_displaced_partial :
  forall (c : cfg) (tj : Z -> tjunk) (s : sys) (a : astate), reach c tj s a ->
    (forall sb sn st rb rn rns d ds rt ed S D, message c a sb sn st (rb + d * ed) rn rt ed S D -> sb <> MPI_IN_PLACE ->
       is_int (d * ed) -> 0 <= rb + d * ed < TWO64 ->
       exists s', only_memory s s' /\ same_domain (s_mem s) (s_mem s') /\ copied (s_mem s) (s_mem s') S D /\
         exec c (KColl (CGatherv sb sn st rb (rn :: rns) (d :: ds) rt 0)) s = Ok (VUnit, s') /\
         exec c (KColl (CAllgatherv sb sn st rb (rn :: rns) (d :: ds) rt)) s = Ok (VUnit, s')) /\
    (forall sb sn sns d ds st es rb rn rt ed S D, message c a (sb + d * es) sn st rb rn rt ed S D -> extent_of c a st es -> rb <> MPI_IN_PLACE ->
       is_int (d * es) -> 0 <= sb + d * es < TWO64 ->
       exists s', only_memory s s' /\ same_domain (s_mem s) (s_mem s') /\ copied (s_mem s) (s_mem s') S D /\
         exec c (KColl (CScatterv sb (sn :: sns) (d :: ds) st rb rn rt 0)) s = Ok (VUnit, s')) /\
    (forall sb sn sns d ds st es rb rn rns d' ds' rt ed S D, message c a (sb + d * es) sn st (rb + d' * ed) rn rt ed S D -> extent_of c a st es ->
       is_int (d * es) -> 0 <= sb + d * es < TWO64 -> is_int (d' * ed) -> 0 <= rb + d' * ed < TWO64 ->
       exists s', only_memory s s' /\ same_domain (s_mem s) (s_mem s') /\ copied (s_mem s) (s_mem s') S D /\
         exec c (KColl (CAlltoallv sb (sn :: sns) (d :: ds) st rb (rn :: rns) (d' :: ds') rt)) s = Ok (VUnit, s')).
Proof. exact (@C57_displaced_lemma). Qed.
Print Assumptions C57_displaced_partial.
Example C57_displaced_ex :
  message default_cfg (ex_a h_coll) (76 + 2 * 12) 2 2 (580 + (-10) * 4) 4 INTT 4
    [(100, 4); (108, 4); (112, 4); (120, 4)] [(540, 4); (540 + 4, 4); (540 + 8, 4); (540 + 12, 4)] /\
  extent_of default_cfg (ex_a h_coll) 2 12 /\ is_int (2 * 12) /\ is_int (-10 * 4).
Proof.
  split; [apply coll_message; right; left; reflexivity|]. split; [|vm_compute; intuition congruence].
  exists ex_vec. split; [vm_compute; reflexivity|exact (proj1 ex_vec_typed)].
Qed.
(** False in general: displacement 2^29 ints from 2^32 is address 6442450944; the int arrives at 2147483648 instead. *)
Definition big_mem : mem := flat 1099511627776 (fun x => x mod 256).
Definition h_big : list call := [KInit; KUser big_mem; KColl (CGatherv 101 1 INTT 4294967296 [1] [536870912] INTT 0)].
Theorem C57_displacement_refuted :
  outs (ex_run h_big) = Ok [VUnit; VUnit; VUnit] /\
  4294967296 + 536870912 * 4 = 6442450944 /\ Type_extent default_cfg int_d = Ok 4 /\
  bytes_at [6442450944; 2147483648] (ex_run h_big) = Ok [big_mem 6442450944; big_mem 101] /\ big_mem 6442450944 <> big_mem 101.
Proof.
  split; [vm_compute; reflexivity|]. split; [reflexivity|]. split; [vm_compute; reflexivity|].
  split; [vm_compute; reflexivity|vm_compute; discriminate].
Qed.
Print Assumptions C57_displacement_refuted.

(** C58: MPI_IN_PLACE.  Full statement: also for Reduce, Reduce_scatter, Scan and Alltoall (and from Fortran, see PropsFort).  What
    holds: from C, for the collectives below, in every state. *)
Theorem C58_in_place_partial :
  forall (c : cfg) (s : sys) (k : coll) sb sn sns ds st rb rn rns rt root op,
    In k [CGather MPI_IN_PLACE sn st rb rn rt root; CGatherv MPI_IN_PLACE sn st rb rns ds rt root;
          CAllgather MPI_IN_PLACE sn st rb rn rt; CAllgatherv MPI_IN_PLACE sn st rb rns ds rt;
          CScatter sb sn st MPI_IN_PLACE rn rt root; CScatterv sb sns ds st MPI_IN_PLACE rn rt root;
          CAllreduce MPI_IN_PLACE rb rn rt op] ->
    exec c (KColl k) s = Ok (VUnit, s).
Proof. intros c s k sb sn sns ds st rb rn rns rt root op H. repeat (destruct H as [<-|H]; [reflexivity|]). destruct H. Qed.
Print Assumptions C58_in_place_partial.
(** The marker is the last address, mpi.h 68: no buffer of two or more bytes is taken for it, nor is MPI_BOTTOM. *)
Theorem C58_marker_is_no_buffer :
  MPI_IN_PLACE = 2 ^ 64 - 1 /\ MPI_IN_PLACE <> 0 /\ forall m n, mem_ok m -> 2 <= n -> ~ CopySpec.live m [(MPI_IN_PLACE, n)].
Proof. exact C58_marker_lemma. Qed.
Print Assumptions C58_marker_is_no_buffer.
(** False for the others: they copy from address 2^64-1. *)
Theorem C58_in_place_refuted :
  forall op k, In k [CReduce MPI_IN_PLACE 500 1 INTT op 0; CReduceScatter MPI_IN_PLACE 500 [1] INTT op; CScan MPI_IN_PLACE 500 1 INTT op;
                     CAlltoall MPI_IN_PLACE 1 INTT 500 1 INTT] ->
    exists w, ex_run [KInit; KColl k] = UB w.
Proof. intros op k H. repeat (destruct H as [<-|H]; [eexists; vm_compute; reflexivity|]). destruct H. Qed.
Print Assumptions C58_in_place_refuted.

(** C59: the root.  Full statement: for every rooted collective and buffer, MPI_ROOT returns at once and any other root but 0 aborts.
    What holds: for Bcast, Gather(v) and Scatter(v) without MPI_IN_PLACE; Reduce aborts for every root but 0. *)
Theorem C59_root_partial :
  forall (c : cfg) (s : sys) sb sn sns ds st rb rn rns rt root op,
    let ks := [CBcast sb sn st root; CGather sb sn st rb rn rt root; CGatherv sb sn st rb rns ds rt root;
               CScatter sb sn st rb rn rt root; CScatterv sb sns ds st rb rn rt root] in
    sb <> MPI_IN_PLACE -> rb <> MPI_IN_PLACE ->
    (forall k, In k ks -> root = MPI_ROOT -> exec c (KColl k) s = Ok (VUnit, s)) /\
    (forall k, In k ks -> root <> MPI_ROOT -> root <> 0 -> exists w, exec c (KColl k) s = Abort w) /\
    (root <> 0 -> exists w, exec c (KColl (CReduce sb rb sn st op root)) s = Abort w).
Proof. exact C59_lemma. Qed.
Print Assumptions C59_root_partial.
Theorem C59_root_refuted :
  (exists w, ex_run [KInit; KColl (CReduce 100 500 1 INTT 0 MPI_ROOT)] = Abort w) /\
  outs (ex_run [KInit; KColl (CGather MPI_IN_PLACE 1 INTT 500 1 INTT 7)]) = Ok [VUnit; VUnit].
Proof. split; [eexists; vm_compute; reflexivity|vm_compute; reflexivity]. Qed.
Print Assumptions C59_root_refuted.

(** C60: Barrier, and Bcast from root 0, change nothing at all. *)
Theorem C60_barrier_bcast :
  forall (c : cfg) (s : sys) buf count ty, exec c (KColl CBarrier) s = Ok (VUnit, s) /\ exec c (KColl (CBcast buf count ty 0)) s = Ok (VUnit, s).
Proof. split; reflexivity. Qed.
Print Assumptions C60_barrier_bcast.
Example C60_ex : outs (ex_run [KInit; KIrecv 500 4 INTT 0 5 1; KColl CBarrier; KColl (CBcast 500 4 INTT 0)]) = Ok [VUnit; VInt 2; VUnit; VUnit].
Proof. vm_compute. reflexivity. Qed.
