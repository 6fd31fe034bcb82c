(** Property theorems about groups, communicator constructors and topologies: C61 to C67. *)
From Verif Require Import Base HandleExact TypeModel CopyModel CopyEx SysModel CollModel SysCalls SysSpec SysLog SysReach SysFacts SysFacts2 SysFinal SysEx CollSpec GroupFacts CollFacts.

(** C61: a group is a set of ranks, {} or {0}; the operations are those of sets, and a null group aborts. *)
Theorem C61_groups_are_sets :
  forall g1 g2, valid_group g1 -> valid_group g2 ->
    (exists g, MPI_Group_union g1 g2 = Ok g /\ valid_group g /\ forall r, has_rank g r <-> has_rank g1 r \/ has_rank g2 r) /\
    (exists g, MPI_Group_intersection g1 g2 = Ok g /\ valid_group g /\ forall r, has_rank g r <-> has_rank g1 r /\ has_rank g2 r) /\
    (exists g, MPI_Group_difference g1 g2 = Ok g /\ valid_group g /\ forall r, has_rank g r <-> has_rank g1 r /\ ~ has_rank g2 r).
Proof. exact C61_lemma. Qed.
Print Assumptions C61_groups_are_sets.
Theorem C61_null_group :
  forall g1 g2, g1 = MPI_GROUP_NULL \/ g2 = MPI_GROUP_NULL ->
    (exists w, MPI_Group_union g1 g2 = Abort w) /\ (exists w, MPI_Group_intersection g1 g2 = Abort w) /\ (exists w, MPI_Group_difference g1 g2 = Abort w).
Proof. exact C61_null_lemma. Qed.
Print Assumptions C61_null_group.
Example C61_ex : valid_group (MPI_Comm_group MPI_COMM_WORLD) /\ valid_group MPI_GROUP_EMPTY /\ MPI_GROUP_EMPTY <> MPI_GROUP_ONE /\
  MPI_Group_difference (MPI_Comm_group MPI_COMM_WORLD) MPI_GROUP_EMPTY = Ok MPI_GROUP_ONE.
Proof. split; [right; reflexivity|]. split; [left; reflexivity|]. split; [discriminate|reflexivity]. Qed.

(** C62: inclusion.  Full statement: the listed ranks must be distinct ranks of the group, otherwise the call aborts; the result
    has exactly those ranks.  Missing for incl: the abort when the group is empty. *)
Theorem C62_incl_partial :
  forall g n ranks, valid_group g -> 0 <= n <= Z.of_nat (length ranks) ->
    let L := firstn (Z.to_nat n) ranks in
    (NoDup L -> (forall r, In r L -> has_rank g r) ->
       exists g', MPI_Group_incl g n ranks = Ok g' /\ valid_group g' /\ forall r, has_rank g' r <-> In r L) /\
    (g = MPI_GROUP_ONE -> ~ (NoDup L /\ forall r, In r L -> has_rank g r) -> exists w, MPI_Group_incl g n ranks = Abort w).
Proof. exact C62_incl_lemma. Qed.
Print Assumptions C62_incl_partial.
(** Missing for range_incl: that abort, and ranges with first <> last. *)
Theorem C62_range_incl_partial :
  forall g n ranges, valid_group g -> 0 <= n <= Z.of_nat (length ranges) ->
    let L := firstn (Z.to_nat n) ranges in
    (forall f l s, In (f, l, s) L -> f = l) ->
    (NoDup (map (fun x => fst (fst x)) L) -> (forall x r, In x L -> in_range x r -> has_rank g r) ->
       exists g', MPI_Group_range_incl g n ranges = Ok g' /\ valid_group g' /\ forall r, has_rank g' r <-> exists x, In x L /\ in_range x r) /\
    (g = MPI_GROUP_ONE -> ~ (NoDup (map (fun x => fst (fst x)) L) /\ forall x r, In x L -> in_range x r -> has_rank g r) ->
       exists w, MPI_Group_range_incl g n ranges = Abort w).
Proof. exact C62_range_lemma. Qed.
Print Assumptions C62_range_incl_partial.
Theorem C62_null_group :
  forall n ranks ranges, (exists w, MPI_Group_incl MPI_GROUP_NULL n ranks = Abort w) /\ (exists w, MPI_Group_range_incl MPI_GROUP_NULL n ranges = Abort w).
Proof. exact C62_null_lemma. Qed.
Print Assumptions C62_null_group.
(** False in general: rank 5 of the empty group is accepted, and the range (0, 1, 2), which is just rank 0, is not. *)
Theorem C62_inclusion_refuted :
  MPI_Group_incl MPI_GROUP_EMPTY 1 [5] = Ok MPI_GROUP_EMPTY /\
  (forall r, in_range (0, 1, 2) r <-> r = 0) /\ exists w, MPI_Group_range_incl MPI_GROUP_ONE 1 [(0, 1, 2)] = Abort w.
Proof.
  split; [reflexivity|]. split; [|eexists; reflexivity]. intros r. cbn. split; [|intros ->; exists 0; lia].
  intros (k & H & ->). change ((1 - 0) / 2) with 0 in H. lia.
Qed.
Print Assumptions C62_inclusion_refuted.
Example C62_ex : NoDup (firstn (Z.to_nat 1) [0; 9]) /\ (forall r, In r (firstn (Z.to_nat 1) [0; 9]) -> has_rank MPI_GROUP_ONE r) /\
  in_range (0, 0, 3) 0 /\ ~ NoDup (firstn (Z.to_nat 2) [0; 0]).
Proof.
  split; [repeat constructor; intros []|]. split; [intros r [<-|[]]; split; reflexivity|]. split; [exists 0; cbn; lia|].
  cbn. intros H. inversion H as [|? ? N]. apply N. left. reflexivity.
Qed.

(** C63: rank translation fills exactly the first n entries; a rank that is not in group1 aborts. *)
Theorem C63_translate_ranks :
  forall g1 n ranks1 g2 ranks2, valid_group g1 -> valid_group g2 -> 0 <= n <= Z.of_nat (length ranks1) -> n <= Z.of_nat (length ranks2) ->
    let L := firstn (Z.to_nat n) ranks1 in
    ((forall r, In r L -> has_rank g1 r) ->
       exists ranks2', MPI_Group_translate_ranks g1 n ranks1 g2 ranks2 = Ok ranks2' /\
         ((has_rank g2 0 -> filled n 0 ranks2 ranks2') /\ (~ has_rank g2 0 -> filled n MPI_UNDEFINED ranks2 ranks2'))) /\
    ((exists r, In r L /\ ~ has_rank g1 r) -> exists w, MPI_Group_translate_ranks g1 n ranks1 g2 ranks2 = Abort w).
Proof. exact C63_lemma. Qed.
Print Assumptions C63_translate_ranks.
Theorem C63_null_group :
  forall g1 n ranks1 g2 ranks2, g1 = MPI_GROUP_NULL \/ g2 = MPI_GROUP_NULL -> exists w, MPI_Group_translate_ranks g1 n ranks1 g2 ranks2 = Abort w.
Proof. exact C63_null_lemma. Qed.
Print Assumptions C63_null_group.
Example C63_ex : MPI_Group_translate_ranks MPI_GROUP_ONE 2 [0; 0; 7] MPI_GROUP_EMPTY [4; 5; 6] = Ok [MPI_UNDEFINED; MPI_UNDEFINED; 6] /\
  (exists w, MPI_Group_translate_ranks MPI_GROUP_ONE 3 [0; 0; 7] MPI_GROUP_EMPTY [4; 5; 6] = Abort w) /\
  MPI_Group_translate_ranks MPI_GROUP_ONE 2 [0; 0; 7] MPI_GROUP_ONE [4; 5; 6] = Ok [0; 0; 6].
Proof. split; [reflexivity|]. split; [eexists; reflexivity|reflexivity]. Qed.

(** C64: a constructor call [k] makes a fresh empty communicator if this process is in the result ([P], see [makes]), and returns
    MPI_COMM_NULL and changes nothing if it is not.  [added]: everything else stays as it was. *)
Theorem C64_communicator_constructors :
  forall (c : cfg) (tj : Z -> tjunk) (s : sys) (a : astate) (k : call) (P : Prop), reach c tj s a -> room_comm a -> makes k P ->
    (P -> has_handle a -> exists h s' a', does c tj s a k (VInt h) s' a' /\ h <> MPI_COMM_NULL /\ added h (AComm (mkAcomm (a_made a) [] [])) a a') /\
    (P -> ~ has_handle a -> exec c k s = Abort handles_msg) /\
    (~ P -> does c tj s a k (VInt MPI_COMM_NULL) s a).
Proof. exact (@C64_lemma). Qed.
Print Assumptions C64_communicator_constructors.
Definition h_comms : list call := [KInit; KCommDup 1; KIrecv 500 4 INTT 0 5 2].
Example C64_ex : reach default_cfg ex_tj (ex_s h_comms) (ex_a h_comms) /\ room_comm (ex_a h_comms) /\ has_handle (ex_a h_comms) /\
  makes (KCommCreate 2 MPI_GROUP_ONE) (MPI_GROUP_ONE <> MPI_GROUP_NULL /\ MPI_GROUP_ONE <> MPI_GROUP_EMPTY) /\ makes (KCartCreate 2 2 [1; 0; 9] [0; 1] 0) True /\
  outs (ex_run (h_comms ++ [KCommCreate 2 MPI_GROUP_ONE; KCommSplit 2 MPI_UNDEFINED 0; KCartCreate 2 2 [1; 0; 9] [0; 1] 0])) =
    Ok [VUnit; VInt 2; VInt 3; VInt 4; VInt MPI_COMM_NULL; VInt 5].
Proof.
  split; [apply ex_reach; vm_compute; reflexivity|]. split; [apply room_commb_ok; vm_compute; reflexivity|]. split; [vm_compute; discriminate|].
  split; [constructor|]. split; [|vm_compute; reflexivity]. constructor; [cbn; lia|]. intros d [<-|[<-|[]]]; lia.
Qed.

(** C65 *)
Theorem C65_size_rank_group :
  forall comm, MPI_Comm_size comm = 1 /\ MPI_Comm_rank comm = 0 /\
    (comm = MPI_COMM_NULL -> MPI_Comm_group comm = MPI_GROUP_NULL) /\
    (comm <> MPI_COMM_NULL -> valid_group (MPI_Comm_group comm) /\ forall r, has_rank (MPI_Comm_group comm) r <-> r = 0).
Proof.
  intros comm. split; [reflexivity|]. split; [reflexivity|]. unfold MPI_Comm_group. split.
  - intros ->. reflexivity.
  - intros H. apply Z.eqb_neq in H. rewrite H. split; [right; reflexivity|]. intros r. unfold has_rank. tauto.
Qed.
Print Assumptions C65_size_rank_group.
Example C65_ex : MPI_COMM_WORLD <> MPI_COMM_NULL.
Proof. discriminate. Qed.

(** C66: topologies.  Full statement: in addition MPI_Cart_get writes the first maxdims periods given to MPI_Cart_create. *)
Theorem C66_cart_create :
  forall (c : cfg) (tj : Z -> tjunk) (s : sys) (a : astate) cm n dims per re, reach c tj s a -> room_comm a -> n <= Z.of_nat (length dims) ->
    (exists d, In d (firstn (Z.to_nat n) dims) /\ 1 < d) -> exec c (KCartCreate cm n dims per re) s = Abort "MPI_Cart_create: Greater dimension than no. of procs".
Proof. exact (@C66_create_lemma). Qed.
Print Assumptions C66_cart_create.
Theorem C66_cart_get_partial :
  forall comm n dims periods coords, n <= Z.of_nat (length dims) -> n <= Z.of_nat (length coords) ->
    exists dims' coords', MPI_Cart_get comm n dims periods coords = Ok (dims', periods, coords') /\ filled n 1 dims dims' /\ filled n 0 coords coords'.
Proof. exact C66_get_lemma. Qed.
Print Assumptions C66_cart_get_partial.
Theorem C66_cart_coords :
  forall comm rank n coords, n <= Z.of_nat (length coords) ->
    (rank = 0 -> exists coords', MPI_Cart_coords comm rank n coords = Ok coords' /\ filled n 0 coords coords') /\
    (rank <> 0 -> exists w, MPI_Cart_coords comm rank n coords = Abort w).
Proof. exact C66_coords_lemma. Qed.
Print Assumptions C66_cart_coords.
Theorem C66_dims_create :
  forall nnodes n dims, n <= Z.of_nat (length dims) ->
    (nnodes <= 1 -> exists dims', MPI_Dims_create nnodes n dims = Ok dims' /\ filled n 1 dims dims') /\
    (1 < nnodes -> exists w, MPI_Dims_create nnodes n dims = Abort w).
Proof. exact C66_dims_lemma. Qed.
Print Assumptions C66_dims_create.
Example C66_ex : MPI_Cart_coords 3 0 2 [7; 8; 9] = Ok [0; 0; 9] /\ MPI_Dims_create 1 2 [7; 8; 9] = Ok [1; 1; 9] /\
  reach default_cfg ex_tj (ex_s h_comms) (ex_a h_comms) /\ room_comm (ex_a h_comms) /\ (exists d, In d (firstn (Z.to_nat 2) [1; 2; 0]) /\ 1 < d).
Proof.
  split; [reflexivity|]. split; [reflexivity|]. split; [apply ex_reach; vm_compute; reflexivity|]. split; [apply room_commb_ok; vm_compute; reflexivity|].
  exists 2. split; [right; left; reflexivity|lia].
Qed.
(** False in general: a topology created with both dimensions periodic (1) is reported with whatever the caller's array held (7, 8). *)
Theorem C66_periods_refuted :
  outs (ex_run [KInit; KCartCreate 1 2 [1; 1] [1; 1] 0]) = Ok [VUnit; VInt 2] /\ MPI_Cart_get 2 2 [5; 5] [7; 8] [5; 5] = Ok ([1; 1], [7; 8], [0; 0]).
Proof. split; vm_compute; reflexivity. Qed.
Print Assumptions C66_periods_refuted.

(** C67 is false: the output variable keeps its value, whatever it was; here 99, which is no communicator. *)
Theorem C67_intercomm_merge_refuted :
  (forall intercomm high newintracomm, MPI_Intercomm_merge intercomm high newintracomm = newintracomm) /\
  outs (ex_run [KInit; KIntercomm 1 1]) = Ok [VUnit; VInt 2] /\ MPI_Intercomm_merge 2 0 99 = 99 /\
  exists w, ex_run [KInit; KIntercomm 1 1; KCommFree 99] = UB w.
Proof. split; [reflexivity|]. split; [vm_compute; reflexivity|]. split; [reflexivity|eexists; vm_compute; reflexivity]. Qed.
Print Assumptions C67_intercomm_merge_refuted.
