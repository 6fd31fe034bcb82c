(** Facts about groups and topologies. *)
From Verif Require Import Base ListModel HandleModel TypeModel CopyModel SysModel CollModel CopySpec SysSpec CollSpec.

Lemma upd_mid {A} (v x : A) r : forall pre, list_upd (pre ++ x :: r) (length pre) v = pre ++ v :: r.
Proof. induction pre as [|y pre IH]; cbn; [reflexivity|]. f_equal. exact IH. Qed.
Lemma skipn_cons {A} : forall k (l : list A) x, nth_error l k = Some x -> skipn k l = x :: skipn (S k) l.
Proof. induction k as [|k IH]; intros [|y l] x E; cbn in *; try discriminate; [congruence|]. apply IH. exact E. Qed.
Lemma fill_step (v : Z) l j : 0 <= j < Z.of_nat (length l) ->
  arr_set (repeat v (Z.to_nat j) ++ skipn (Z.to_nat j) l) j v = Ok (repeat v (Z.to_nat (j + 1)) ++ skipn (Z.to_nat (j + 1)) l).
Proof.
  intros H. set (k := Z.to_nat j). assert (Hk : (k < length l)%nat) by (unfold k; lia).
  destruct (nth_error l k) as [x|] eqn:E; [|apply nth_error_None in E; lia].
  rewrite arr_set_ok by (rewrite app_length, repeat_length, skipn_length; lia).
  replace (Z.to_nat (j + 1)) with (S k) by (unfold k; lia). f_equal. fold k. rewrite (skipn_cons k l x E).
  pose proof (upd_mid v x (skipn (S k) l) (repeat v k)) as U. rewrite repeat_length in U. rewrite U.
  change (repeat v (S k)) with (v :: repeat v k). rewrite repeat_cons, <- app_assoc. reflexivity.
Qed.
Lemma to_nat_neg n : n <= 0 -> Z.to_nat n = 0%nat. Proof. lia. Qed.

Lemma fill_loop (v n : Z) (l : list Z) : n <= Z.of_nat (length l) -> for_loop 0 n (fun i l => arr_set l i v) l = Ok (repeat v (Z.to_nat n) ++ skipn (Z.to_nat n) l).
Proof.
  intros H. destruct (Z.leb_spec n 0) as [L|L].
  - rewrite for_loop_empty by exact L. rewrite (to_nat_neg n L). reflexivity.
  - destruct (for_loop_inv (fun j x => x = repeat v (Z.to_nat j) ++ skipn (Z.to_nat j) l) 0 n (fun i l => arr_set l i v) l) as (l' & E & ->); auto; [lia|].
    intros j s0 Hj ->. rewrite fill_step by lia. eauto.
Qed.

(** C61 *)
Theorem C61_lemma g1 g2 : valid_group g1 -> valid_group g2 ->
  (exists g, MPI_Group_union g1 g2 = Ok g /\ valid_group g /\ forall r, has_rank g r <-> has_rank g1 r \/ has_rank g2 r) /\
  (exists g, MPI_Group_intersection g1 g2 = Ok g /\ valid_group g /\ forall r, has_rank g r <-> has_rank g1 r /\ has_rank g2 r) /\
  (exists g, MPI_Group_difference g1 g2 = Ok g /\ valid_group g /\ forall r, has_rank g r <-> has_rank g1 r /\ ~ has_rank g2 r).
Proof.
  unfold valid_group, has_rank, MPI_GROUP_EMPTY, MPI_GROUP_ONE.
  intros [-> | ->] [-> | ->]; repeat split; eexists; (split; [reflexivity|]); (split; [auto|]); intros r; intuition discriminate.
Qed.
Theorem C61_null_lemma g1 g2 : g1 = MPI_GROUP_NULL \/ g2 = MPI_GROUP_NULL ->
  (exists w, MPI_Group_union g1 g2 = Abort w) /\ (exists w, MPI_Group_intersection g1 g2 = Abort w) /\ (exists w, MPI_Group_difference g1 g2 = Abort w).
Proof.
  intros H. unfold MPI_Group_union, MPI_Group_intersection, MPI_Group_difference.
  assert (E : (g1 =? MPI_GROUP_NULL) || (g2 =? MPI_GROUP_NULL) = true) by (apply orb_true_iff; rewrite !Z.eqb_eq; exact H).
  rewrite E. split; [|split]; eexists; reflexivity.
Qed.

(** C62 *)
Definition sel (n : Z) {A} (l : list A) : list A := firstn (Z.to_nat n) l.
Lemma sel_one {A} (l : list A) n : 0 <= n -> n <= Z.of_nat (length l) -> length (sel n l) = Z.to_nat n.
Proof. intros H1 H2. unfold sel. apply firstn_length_le. lia. Qed.
Theorem C62_incl_lemma g n ranks : valid_group g -> 0 <= n <= Z.of_nat (length ranks) ->
  let L := firstn (Z.to_nat n) ranks in
  (NoDup L -> (forall r, In r L -> has_rank g r) ->
     exists g', MPI_Group_incl g n ranks = Ok g' /\ valid_group g' /\ forall r, has_rank g' r <-> In r L) /\
  (g = MPI_GROUP_ONE -> ~ (NoDup L /\ forall r, In r L -> has_rank g r) -> exists w, MPI_Group_incl g n ranks = Abort w).
Proof.
  intros V Hn L. unfold MPI_Group_incl.
  destruct (Z.eqb_spec n 0) as [->|N0].
  { assert (EL : L = []) by reflexivity. rewrite EL. split.
    - intros _ _. exists MPI_GROUP_EMPTY. split; [|split; [left; reflexivity|unfold has_rank, MPI_GROUP_EMPTY, MPI_GROUP_ONE; cbn; intuition discriminate]].
      destruct V as [-> | ->]; reflexivity.
    - intros _ H. exfalso. apply H. split; [constructor|intros ? []]. }
  destruct ranks as [|r0 ranks]; [cbn in Hn; lia|].
  assert (EL : L = r0 :: firstn (Z.to_nat (n - 1)) ranks).
  { unfold L. replace (Z.to_nat n) with (S (Z.to_nat (n - 1))) by lia. reflexivity. }
  rewrite EL. split.
  - intros ND H. destruct (H r0 (or_introl eq_refl)) as [-> ->]. change (MPI_GROUP_ONE =? MPI_GROUP_NULL) with false. change (MPI_GROUP_ONE =? MPI_GROUP_EMPTY) with false.
    cbn [orb]. assert (E : firstn (Z.to_nat (n - 1)) ranks = []).
    { inversion ND as [|x y Hx ND']. subst. destruct (firstn (Z.to_nat (n - 1)) ranks) as [|y t]; [reflexivity|]. exfalso.
      destruct (H y (or_intror (or_introl eq_refl))) as [_ ->]. apply Hx. left. reflexivity. }
    assert (n = 1). { assert (length (firstn (Z.to_nat (n - 1)) ranks) = Z.to_nat (n - 1)) by (apply firstn_length_le; cbn in Hn; lia). rewrite E in H0. cbn in H0. lia. }
    subst n. cbn. exists MPI_GROUP_ONE. split; [reflexivity|]. split; [right; reflexivity|]. intros r. unfold has_rank. intuition.
  - intros -> H. change (MPI_GROUP_ONE =? MPI_GROUP_NULL) with false. change (MPI_GROUP_ONE =? MPI_GROUP_EMPTY) with false. cbn [orb].
    destruct (Z.eqb_spec n 1) as [->|N1]; [|cbn; eauto]. cbn. destruct (Z.eqb_spec r0 0) as [->|]; cbn; [|eauto].
    exfalso. apply H. split; [repeat constructor; intros []|]. intros r [<-|[]]. split; reflexivity.
Qed.
Theorem C62_range_lemma g n ranges : valid_group g -> 0 <= n <= Z.of_nat (length ranges) ->
  let L := firstn (Z.to_nat n) ranges in
  (forall f l s, In (f, l, s) L -> f = l) ->
  (NoDup (map (fun x => fst (fst x)) L) -> (forall x r, In x L -> in_range x r -> has_rank g r) ->
     exists g', MPI_Group_range_incl g n ranges = Ok g' /\ valid_group g' /\ forall r, has_rank g' r <-> exists x, In x L /\ in_range x r) /\
  (g = MPI_GROUP_ONE -> ~ (NoDup (map (fun x => fst (fst x)) L) /\ forall x r, In x L -> in_range x r -> has_rank g r) -> exists w, MPI_Group_range_incl g n ranges = Abort w).
Proof.
  intros V Hn L Pt.
  assert (IR : forall f l s r, In (f, l, s) L -> (in_range (f, l, s) r <-> r = f)).
  { intros f l s r Hi. rewrite <- (Pt _ _ _ Hi). unfold in_range. rewrite Z.sub_diag. rewrite Zdiv_0_l. split.
    - intros (k & Hk & ->). replace k with 0 by lia. lia.
    - intros ->. exists 0. lia. }
  unfold MPI_Group_range_incl.
  destruct (Z.eqb_spec n 0) as [->|N0].
  { assert (EL : L = []) by reflexivity. rewrite EL. split.
    - intros _ _. exists MPI_GROUP_EMPTY. split; [|split; [left; reflexivity|unfold has_rank, MPI_GROUP_EMPTY, MPI_GROUP_ONE; cbn; split; [intros [? _]; discriminate|intros (x & [] & _)]]].
      destruct V as [-> | ->]; reflexivity.
    - intros _ H. exfalso. apply H. split; [constructor|intros ? ? []]. }
  destruct ranges as [|[[f0 l0] s0] ranges]; [cbn in Hn; lia|].
  assert (EL : L = (f0, l0, s0) :: firstn (Z.to_nat (n - 1)) ranges).
  { unfold L. replace (Z.to_nat n) with (S (Z.to_nat (n - 1))) by lia. reflexivity. }
  clearbody L. assert (El : f0 = l0) by (apply (Pt f0 l0 s0); rewrite EL; left; reflexivity). subst l0.
  split.
  - intros ND H. assert (H0 : has_rank g f0).
    { apply (H (f0, f0, s0)); [rewrite EL; left; reflexivity|]. apply IR; [rewrite EL; left; reflexivity|reflexivity]. }
    destruct H0 as [-> ->]. change (MPI_GROUP_ONE =? MPI_GROUP_NULL) with false. change (MPI_GROUP_ONE =? MPI_GROUP_EMPTY) with false.
    cbn [orb]. assert (E : firstn (Z.to_nat (n - 1)) ranges = []).
    { rewrite EL in ND. cbn [map fst snd] in ND. apply NoDup_cons_iff in ND. destruct ND as [Hx _]. destruct (firstn (Z.to_nat (n - 1)) ranges) as [|[[f1 l1] s1] t] eqn:Ef; [reflexivity|]. exfalso.
      assert (Hi : In (f1, l1, s1) L) by (rewrite EL; right; left; reflexivity).
      destruct (H (f1, l1, s1) f1 Hi) as [_ ->]; [apply IR; auto|]. apply Hx. left. reflexivity. }
    assert (n = 1). { assert (Hl : length (firstn (Z.to_nat (n - 1)) ranges) = Z.to_nat (n - 1)) by (apply firstn_length_le; cbn in Hn; lia). rewrite E in Hl. cbn in Hl. lia. }
    subst n. cbn. exists MPI_GROUP_ONE. split; [reflexivity|]. split; [right; reflexivity|]. intros r. unfold has_rank. split.
    + intros [_ ->]. exists (0, 0, s0). split; [rewrite EL; left; reflexivity|]. apply IR; [rewrite EL; left; reflexivity|reflexivity].
    + intros (x & Hx & Hr). rewrite EL in Hx. destruct Hx as [<-|[]]. split; auto. apply IR in Hr; [auto|rewrite EL; left; reflexivity].
  - intros -> H. change (MPI_GROUP_ONE =? MPI_GROUP_NULL) with false. change (MPI_GROUP_ONE =? MPI_GROUP_EMPTY) with false. cbn [orb].
    destruct (Z.eqb_spec n 1) as [->|N1]; [|cbn; eauto]. cbn. destruct (Z.eqb_spec f0 0) as [->|]; cbn; [|eauto].
    exfalso. apply H. rewrite EL. cbn. split; [repeat constructor; intros []|]. intros x r [<-|[]] Hr. apply IR in Hr; [|rewrite EL; left; reflexivity]. subst r. split; reflexivity.
Qed.
Theorem C62_null_lemma n ranks ranges : (exists w, MPI_Group_incl MPI_GROUP_NULL n ranks = Abort w) /\ (exists w, MPI_Group_range_incl MPI_GROUP_NULL n ranges = Abort w).
Proof. split; eexists; reflexivity. Qed.

(** C63 *)
Lemma translate_from g2 ranks1 ranks2 : forall n k, (k + n <= length ranks1)%nat -> (k + n <= length ranks2)%nat ->
  let v := if negb (g2 =? MPI_GROUP_EMPTY) then 0 else MPI_UNDEFINED in
  let r := for_from n (Z.of_nat k) (fun i ranks2 => do r <- arr_get ranks1 i;
    if negb (r =? 0) then Abort "MPI_Group_translate_ranks: bad input rank" else
    arr_set ranks2 i (if negb (g2 =? MPI_GROUP_EMPTY) then r else MPI_UNDEFINED)) (repeat v k ++ skipn k ranks2) in
  ((forall x, In x (firstn n (skipn k ranks1)) -> x = 0) -> r = Ok (repeat v (k + n) ++ skipn (k + n) ranks2)) /\
  ((exists x, In x (firstn n (skipn k ranks1)) /\ x <> 0) -> r = Abort "MPI_Group_translate_ranks: bad input rank").
Proof.
  induction n as [|n IH]; intros k H1 H2 v r.
  - split; [|intros (x & [] & _)]. intros _. unfold r. cbn [for_from]. rewrite Nat.add_0_r. reflexivity.
  - destruct (nth_error ranks1 k) as [x|] eqn:E; [|apply nth_error_None in E; lia].
    rewrite (skipn_cons k ranks1 x E). unfold r. cbn [for_from firstn].
    rewrite (arr_get_nth ranks1 (Z.of_nat k) x) by (try lia; rewrite Nat2Z.id; exact E). cbn [bind].
    destruct (Z.eqb_spec x 0) as [->|Nx]; cbn [negb].
    + assert (Ev : (if negb (g2 =? MPI_GROUP_EMPTY) then 0 else MPI_UNDEFINED) = v) by reflexivity. rewrite Ev.
      pose proof (fill_step v ranks2 (Z.of_nat k) ltac:(lia)) as F. rewrite Nat2Z.id in F. rewrite F. cbn [bind].
      replace (Z.to_nat (Z.of_nat k + 1)) with (S k) by lia. replace (Z.of_nat k + 1) with (Z.of_nat (S k)) by lia.
      destruct (IH (S k) ltac:(lia) ltac:(lia)) as [A B]. replace (k + S n)%nat with (S k + n)%nat by lia. split.
      * intros H. apply A. intros y Hy. apply H. right. exact Hy.
      * intros (y & [<-|Hy] & Ny); [contradiction|]. apply B. eauto.
    + split; [intros H; exfalso; apply Nx; apply H; left; reflexivity|]. intros _. reflexivity.
Qed.
Theorem C63_lemma g1 n ranks1 g2 ranks2 : valid_group g1 -> valid_group g2 -> 0 <= n <= Z.of_nat (length ranks1) -> n <= Z.of_nat (length ranks2) ->
  let L := firstn (Z.to_nat n) ranks1 in
  ((forall r, In r L -> has_rank g1 r) ->
     exists ranks2', MPI_Group_translate_ranks g1 n ranks1 g2 ranks2 = Ok ranks2' /\
       ((has_rank g2 0 -> filled n 0 ranks2 ranks2') /\ (~ has_rank g2 0 -> filled n MPI_UNDEFINED ranks2 ranks2'))) /\
  ((exists r, In r L /\ ~ has_rank g1 r) -> exists w, MPI_Group_translate_ranks g1 n ranks1 g2 ranks2 = Abort w).
Proof.
  intros V1 V2 H1 H2 L. unfold MPI_Group_translate_ranks.
  assert (E : (g1 =? MPI_GROUP_NULL) || (g2 =? MPI_GROUP_NULL) = false) by (destruct V1 as [-> | ->], V2 as [-> | ->]; reflexivity). rewrite E.
  destruct (Z.eqb_spec n 0) as [->|N].
  { split; [|intros (r & [] & _)]. intros _. exists ranks2. split; [reflexivity|]. split; reflexivity. }
  destruct V1 as [-> | ->].
  { change (MPI_GROUP_EMPTY =? MPI_GROUP_EMPTY) with true. split; [|eauto]. intros H. exfalso.
    unfold L in H. destruct ranks1 as [|r rs]; [cbn in H1; lia|]. replace (Z.to_nat n) with (S (Z.to_nat (n - 1))) in H by lia.
    destruct (H r (or_introl eq_refl)) as [X _]. discriminate. }
  change (MPI_GROUP_ONE =? MPI_GROUP_EMPTY) with false. unfold for_loop. rewrite Z.sub_0_r.
  destruct (translate_from g2 ranks1 ranks2 (Z.to_nat n) 0 ltac:(lia) ltac:(lia)) as [A B]. cbn [skipn Nat.add repeat app] in A, B. change (Z.of_nat 0) with 0 in A, B. split.
  - intros H. rewrite A; [|intros x Hx; apply H; exact Hx]. eexists. split; [reflexivity|]. unfold filled, has_rank. destruct V2 as [-> | ->]; split; intros K; try reflexivity; exfalso.
    + destruct K as [K _]. discriminate.
    + apply K. auto.
  - intros (r & Hr & Nr). rewrite B; [eauto|]. exists r. split; auto. intros ->. apply Nr. split; reflexivity.
Qed.
Theorem C63_null_lemma g1 n ranks1 g2 ranks2 : g1 = MPI_GROUP_NULL \/ g2 = MPI_GROUP_NULL -> exists w, MPI_Group_translate_ranks g1 n ranks1 g2 ranks2 = Abort w.
Proof.
  intros H. unfold MPI_Group_translate_ranks.
  assert (E : (g1 =? MPI_GROUP_NULL) || (g2 =? MPI_GROUP_NULL) = true) by (apply orb_true_iff; rewrite !Z.eqb_eq; exact H).
  rewrite E. eauto.
Qed.

(** C66 *)
Theorem C66_get_lemma comm n dims periods coords : n <= Z.of_nat (length dims) -> n <= Z.of_nat (length coords) ->
  exists dims' coords', MPI_Cart_get comm n dims periods coords = Ok (dims', periods, coords') /\ filled n 1 dims dims' /\ filled n 0 coords coords'.
Proof.
  intros H1 H2. unfold MPI_Cart_get, filled. destruct (Z.leb_spec n 0) as [L|L].
  - rewrite for_loop_empty by exact L. rewrite (to_nat_neg n L). exists dims, coords. auto.
  - destruct (for_loop_inv (fun j x => x = (repeat 1 (Z.to_nat j) ++ skipn (Z.to_nat j) dims, periods, repeat 0 (Z.to_nat j) ++ skipn (Z.to_nat j) coords)) 0 n
      (fun i st => let '(dims, periods, coords) := st in do dims <- arr_set dims i 1; do coords <- arr_set coords i 0; Ok (dims, periods, coords)) (dims, periods, coords)) as (l' & E & ->); [lia|reflexivity| |].
    + intros j s0 Hj ->. rewrite !fill_step by lia. cbn [bind]. eauto.
    + rewrite E. eexists _, _. split; [reflexivity|]. auto.
Qed.
Theorem C66_coords_lemma comm rank n coords : n <= Z.of_nat (length coords) ->
  (rank = 0 -> exists coords', MPI_Cart_coords comm rank n coords = Ok coords' /\ filled n 0 coords coords') /\
  (rank <> 0 -> exists w, MPI_Cart_coords comm rank n coords = Abort w).
Proof.
  intros H. unfold MPI_Cart_coords, filled. split.
  - intros ->. cbn [Z.eqb negb]. rewrite fill_loop by exact H. eauto.
  - intros N. apply Z.eqb_neq in N. rewrite N. cbn [negb]. eauto.
Qed.
Theorem C66_dims_lemma nnodes n dims : n <= Z.of_nat (length dims) ->
  (nnodes <= 1 -> exists dims', MPI_Dims_create nnodes n dims = Ok dims' /\ filled n 1 dims dims') /\
  (1 < nnodes -> exists w, MPI_Dims_create nnodes n dims = Abort w).
Proof.
  intros H. unfold MPI_Dims_create, filled. destruct (Z.gtb_spec nnodes 1) as [L|L]; split; intros X; try lia; [eauto|].
  rewrite fill_loop by exact H. eauto.
Qed.
