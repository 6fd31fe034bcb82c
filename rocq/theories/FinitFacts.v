(** Proofs for C100. *)
From Verif Require Import Base ListModel HandleModel TypeModel TypeSpec CopyModel SysModel CollModel SysCalls HeaderModel FortModel FortSpec FortFacts FinitModel FinitSpec.

Lemma read_shipped n : In n (map fst compared) \/ In n measured -> read_const n = shipped n.
Proof. intros [I|I]; cbn in I; repeat (destruct I as [<-|I]; [vm_compute; reflexivity|]); destruct I. Qed.
Lemma header_int n : is_int (header_value n).
Proof.
  unfold header_value. assert (A : forallb (fun p => (INT_MIN <=? snd p) && (snd p <=? INT_MAX)) mpif_h = true) by (vm_compute; reflexivity).
  rewrite forallb_forall in A. destruct (find _ mpif_h) as [p|] eqn:E; [|vm_compute; split; discriminate].
  apply find_some in E. destruct E as [E _]. specialize (A p E). apply andb_true_iff in A. rewrite !Z.leb_le in A. exact A.
Qed.
Lemma read_int n : is_int (read_const n).
Proof. unfold read_const. destruct (bound _ _ _) as [[]|]; try apply header_int; vm_compute; split; discriminate. Qed.
Definition array_of (n : string) : string :=
  (if String.eqb n "MPI_INTEGER" then "fint" else if String.eqb n "MPI_LOGICAL" then "flog" else if String.eqb n "MPI_REAL" then "freal"
  else if String.eqb n "MPI_DOUBLE_PRECISION" then "fdub" else "fcomp")%string.
Lemma measure_elem base elem n : measure base elem n = elem (array_of n).
Proof.
  unfold measure, pointers, array_of.
  assert (B : forall x, bound init_formals init_actuals (x ++ "1")%string = Some (FElem x 1) -> bound init_formals init_actuals (x ++ "2")%string = Some (FElem x 2) ->
    address base elem (bound init_formals init_actuals (x ++ "2")%string) - address base elem (bound init_formals init_actuals (x ++ "1")%string) = elem x).
  { intros x E1 E2. rewrite E1, E2. unfold address. ring. }
  destruct (String.eqb n "MPI_INTEGER"); [exact (B "fint"%string eq_refl eq_refl)|].
  destruct (String.eqb n "MPI_LOGICAL"); [exact (B "flog"%string eq_refl eq_refl)|].
  destruct (String.eqb n "MPI_REAL"); [exact (B "freal"%string eq_refl eq_refl)|].
  destruct (String.eqb n "MPI_DOUBLE_PRECISION"); [exact (B "fdub"%string eq_refl eq_refl)|exact (B "fcomp"%string eq_refl eq_refl)].
Qed.
Lemma sized fr fd h v : In (h, v) (first_sizes fr fd) -> 
  (h = -16 -> v = 4) /\ (h = -21 -> v = 4) /\ (h = -17 -> v = fr) /\ (h = -18 -> v = fd) /\ (h = -19 -> v = 2 * fr).
Proof.
  unfold first_sizes. cbn [In]. intros I.
  repeat (destruct I as [I|I]; [injection I as <- <-; repeat split; intros X; try reflexivity; discriminate X|]). destruct I.
Qed.
Lemma agree_usual c base elem : agree (fsize_real c) (fsize_dprec c) read_const (measure base elem) <-> usual c elem.
Proof.
  unfold agree, usual. split.
  - intros [_ B].
    pose proof (B "MPI_INTEGER"%string ltac:(cbn; tauto)) as B1. pose proof (B "MPI_LOGICAL"%string ltac:(cbn; tauto)) as B2.
    pose proof (B "MPI_REAL"%string ltac:(cbn; tauto)) as B3. pose proof (B "MPI_DOUBLE_PRECISION"%string ltac:(cbn; tauto)) as B4.
    pose proof (B "MPI_COMPLEX"%string ltac:(cbn; tauto)) as B5. rewrite measure_elem in B1, B2, B3, B4, B5.
    rewrite read_shipped in B1, B2, B3, B4, B5 by (right; cbn; tauto).
    apply sized in B1, B2, B3, B4, B5. cbn in B1, B2, B3, B4, B5. intuition.
  - intros (E1 & E2 & E3 & E4 & E5). split.
    + intros n v I. rewrite read_shipped by (left; apply in_map_iff; exists (n, v); auto).
      cbn in I. repeat (destruct I as [I|I]; [injection I as <- <-; vm_compute; reflexivity|]). destruct I.
    + intros n I. rewrite measure_elem, read_shipped by auto. cbn in I.
      destruct I as [<-|[<-|[<-|[<-|[<-|[]]]]]]; cbn [array_of String.eqb Ascii.eqb Bool.eqb];
        [change (array_of "MPI_INTEGER") with "fint"%string; rewrite E1|change (array_of "MPI_LOGICAL") with "flog"%string; rewrite E2|
         change (array_of "MPI_REAL") with "freal"%string; rewrite E3|change (array_of "MPI_DOUBLE_PRECISION") with "fdub"%string; rewrite E4|
         change (array_of "MPI_COMPLEX") with "fcomp"%string; rewrite E5]; 
        match goal with |- In (shipped ?n, _) _ => let v := eval vm_compute in (shipped n) in change (shipped n) with v end; cbn [In first_sizes];
        repeat ((left; reflexivity) || right).
Qed.
Theorem C100_init_lemma c base elem s s1 : MPI_Init s = Ok (tt, s1) -> (forall a, is_int (elem a)) ->
  (usual c elem -> MPI_INIT_f c base elem s = Ok (0, s1) /\ forall req, MPI_INIT_THREAD_f c base elem req s = Ok (req, 0, s1)) /\
  (~ usual c elem -> exists m, MPI_INIT_f c base elem s = Abort m /\ forall req, MPI_INIT_THREAD_f c base elem req s = Abort m).
Proof.
  intros HI EI. destruct (C71_lemma c read_const (measure base elem) s s1 HI read_int) as [A B].
  - intros n. rewrite measure_elem. apply EI.
  - intros n I. cbn in I. destruct I as [<-|[<-|[<-|[]]]]; vm_compute; discriminate.
  - intros n I. rewrite read_shipped by auto. cbn in I.
    destruct I as [<-|[<-|[<-|[<-|[<-|[]]]]]]; match goal with |- exists v, In (shipped ?n, v) _ => let w := eval vm_compute in (shipped n) in change (shipped n) with w end; eexists; cbn [In first_sizes];
        repeat ((left; reflexivity) || right).
  - rewrite agree_usual in A, B. unfold MPI_INIT_THREAD_f, MPI_INIT_f. split.
    + intros U. specialize (A U). split; [exact A|]. intros req. unfold mbind. rewrite A. reflexivity.
    + intros U. destruct (B U) as (m & E). exists m. split; [exact E|]. intros req. unfold mbind. rewrite E. reflexivity.
Qed.

(** The sentinels. *)
Lemma saved at_ : save_fort_pointers at_ = mkFort at_ (at_ + 16) (at_ + 32).
Proof. unfold save_fort_pointers, passed. cbn [find combine save_formals save_actuals String.eqb fst snd Ascii.eqb Bool.eqb in_block common_block]. f_equal; cbn; lia. Qed.
Theorem C100_sentinels_lemma at_ (f := save_fort_pointers at_) (addr : string -> Z := in_block at_ common_block) :
  (forall x st, mpi_c_status f (x, st) = SIgnore <-> x = addr "MPI_STATUS_IGNORE"%string) /\
  (forall x st, mpi_c_statuses f (x, st) = SSIgnore <-> x = addr "MPI_STATUSES_IGNORE"%string) /\
  (mpi_c_in_place f (addr "MPI_IN_PLACE"%string) = MPI_IN_PLACE /\ forall x, x <> addr "MPI_IN_PLACE"%string -> mpi_c_in_place f x = x) /\
  (forall x, ~ at_ <= x < at_ + 36 -> (forall st, mpi_c_status f (x, st) = SAt st) /\ (forall st, mpi_c_statuses f (x, st) = SSAt st) /\ mpi_c_in_place f x = x) /\
  NoDup [addr "MPI_STATUS_IGNORE"%string; addr "MPI_STATUSES_IGNORE"%string; addr "MPI_IN_PLACE"%string].
Proof.
  subst f addr. rewrite saved.
  assert (A1 : in_block at_ common_block "MPI_STATUS_IGNORE" = at_) by (cbn; lia).
  assert (A2 : in_block at_ common_block "MPI_STATUSES_IGNORE" = at_ + 16) by (cbn; lia).
  assert (A3 : in_block at_ common_block "MPI_IN_PLACE" = at_ + 32) by (cbn; lia).
  rewrite A1, A2, A3. unfold mpi_c_status, mpi_c_statuses, mpi_c_in_place. cbn [fst snd f_status f_statuses f_in_place].
  split; [intros x st; destruct (Z.eqb_spec x at_); split; congruence|].
  split; [intros x st; destruct (Z.eqb_spec x (at_ + 16)); split; congruence|].
  split; [split; [rewrite Z.eqb_refl; reflexivity|intros x N; apply Z.eqb_neq in N; rewrite N; reflexivity]|].
  split.
  - intros x N. rewrite !(proj2 (Z.eqb_neq _ _)) by lia. auto.
  - repeat constructor; cbn [In]; lia.
Qed.
Theorem C100_known_lemma at_ ks f :
  fort_after at_ ks f = if existsb (fun k => match k with KInit | KInitThread _ => true | _ => false end) ks then save_fort_pointers at_ else f.
Proof.
  revert f. induction ks as [|k ks IH]; intros f; [reflexivity|]. cbn [fort_after existsb]. rewrite IH.
  destruct k; cbn [orb]; try reflexivity; destruct (existsb _ ks); reflexivity.
Qed.
Theorem C100_positions_lemma :
  length init_formals = length init_actuals /\ NoDup init_formals /\
  (forall n, In n (map fst compared) \/ In n measured -> bound init_formals init_actuals ("f_" ++ n)%string = Some (FConst n) /\ header_value n = shipped n) /\
  bound init_formals init_actuals "f_status"%string = Some (FWhole "status"%string) /\ bound init_formals init_actuals "ierror"%string = Some (FWhole "ierror"%string).
Proof.
  split; [reflexivity|]. split.
  { assert (A : (fix nd (l : list string) := match l with [] => true | x :: r => negb (existsb (String.eqb x) r) && nd r end) init_formals = true) by (vm_compute; reflexivity).
    revert A. generalize init_formals. induction l as [|x r IH]; intros A; constructor.
    - apply andb_true_iff in A. destruct A as [A _]. intros I. apply negb_true_iff in A. rewrite <- not_true_iff_false in A. apply A.
      apply existsb_exists. exists x. split; [exact I|apply String.eqb_refl].
    - apply IH. apply andb_true_iff in A. apply A. }
  split; [|split; vm_compute; reflexivity].
  intros n [I|I]; cbn in I; repeat (destruct I as [<-|I]; [split; vm_compute; reflexivity|]); destruct I.
Qed.
Theorem C100_before_lemma x : x <> 0 -> (forall st, mpi_c_status no_fort (x, st) = SAt st) /\ (forall st, mpi_c_statuses no_fort (x, st) = SSAt st) /\ mpi_c_in_place no_fort x = x.
Proof. intros N. unfold mpi_c_status, mpi_c_statuses, mpi_c_in_place. cbn [fst snd no_fort f_status f_statuses f_in_place]. rewrite (proj2 (Z.eqb_neq _ _) N). auto. Qed.
