(** The routines of group.c, cart.c and the small files, run from their text, and the model (C123). *)
From Verif Require Import Base LinkModel TextModel TextSpec SourceModel SourceSpec SysModel CollModel StubModel RunSpec RunFacts.
From Coq Require Import Ascii.
#[local] Open Scope string_scope.
#[local] Open Scope list_scope.
#[local] Open Scope Z_scope.

Definition numbers : list (string * Z) := Eval vm_compute in defined_in text_mpi_h.
Lemma numbers_ok : defined_in text_mpi_h = numbers. Proof. vm_compute. reflexivity. Qed.
Definition p_group : program := Eval vm_compute in prog s_group_c.
Lemma p_group_ok : prog s_group_c = p_group. Proof. vm_compute. reflexivity. Qed.
Definition p_cart : program := Eval vm_compute in prog s_cart_c.
Lemma p_cart_ok : prog s_cart_c = p_cart. Proof. vm_compute. reflexivity. Qed.

Definition p_op : program := Eval vm_compute in prog s_op_c.
Lemma p_op_ok : prog s_op_c = p_op. Proof. vm_compute. reflexivity. Qed.
Definition p_info : program := Eval vm_compute in prog s_info_c.
Lemma p_info_ok : prog s_info_c = p_info. Proof. vm_compute. reflexivity. Qed.
Definition p_error : program := Eval vm_compute in prog s_error_c.
Lemma p_error_ok : prog s_error_c = p_error. Proof. vm_compute. reflexivity. Qed.
Definition p_merge : program := Eval vm_compute in prog s_ic_merge_c.
Lemma p_merge_ok : prog s_ic_merge_c = p_merge. Proof. vm_compute. reflexivity. Qed.
Definition p_coll : program := Eval vm_compute in prog s_collective_c.
Lemma p_coll_ok : prog s_collective_c = p_coll. Proof. vm_compute. reflexivity. Qed.
Definition p_comm : program := Eval vm_compute in prog s_comm_c.
Lemma p_comm_ok : prog s_comm_c = p_comm. Proof. vm_compute. reflexivity. Qed.
Definition p_req : program := Eval vm_compute in prog s_req_c.
Lemma p_req_ok : prog s_req_c = p_req. Proof. vm_compute. reflexivity. Qed.
Definition p_count : program := Eval vm_compute in prog s_getcount_c.
Lemma p_count_ok : prog s_getcount_c = p_count. Proof. vm_compute. reflexivity. Qed.

Ltac start := unfold runs, runs_with; rewrite numbers_ok.
Ltac go := repeat (step || split_if).
Ltac deep d Hd := destruct d as [|[|d]]; [lia|lia|].
Ltac compare := unfold MPI_GROUP_NULL, MPI_GROUP_ONE, MPI_GROUP_EMPTY, MPI_UNDEFINED in *;
  repeat first [progress cbn [orb andb negb bind alike fst snd] | match goal with H : ?b = true |- context [?b] => rewrite H | H : ?b = false |- context [?b] => rewrite H end]; auto.
Lemma union_lemma : forall d n s g1 g2 po pi old, s_cell s po pi "" = Some old -> (2 <= d)%nat ->
  alike (fun m r => r = (VI 0, set_cell s po pi "" (Some (VI m)))) (MPI_Group_union g1 g2) (runs s_group_c [] d n "MPI_Group_union" [VI g1; VI g2; VP po pi] s).
Proof. intros d n s g1 g2 po pi old H Hd. deep d Hd. start. rewrite p_group_ok. go; unfold MPI_Group_union; compare. Qed.
Lemma intersection_lemma : forall d n s g1 g2 po pi old, s_cell s po pi "" = Some old -> (2 <= d)%nat ->
  alike (fun m r => r = (VI 0, set_cell s po pi "" (Some (VI m)))) (MPI_Group_intersection g1 g2) (runs s_group_c [] d n "MPI_Group_intersection" [VI g1; VI g2; VP po pi] s).
Proof. intros d n s g1 g2 po pi old H Hd. deep d Hd. start. rewrite p_group_ok. go; unfold MPI_Group_intersection; compare. Qed.
Lemma difference_lemma : forall d n s g1 g2 po pi old, s_cell s po pi "" = Some old -> (2 <= d)%nat ->
  alike (fun m r => r = (VI 0, set_cell s po pi "" (Some (VI m)))) (MPI_Group_difference g1 g2) (runs s_group_c [] d n "MPI_Group_difference" [VI g1; VI g2; VP po pi] s).
Proof. intros d n s g1 g2 po pi old H Hd. deep d Hd. start. rewrite p_group_ok. go; unfold MPI_Group_difference; compare. Qed.
Ltac straight E :=
  start; rewrite E;
  match goal with |- ?x = Ok ?y => let G := fresh in assert (G : alike (fun _ r => r = y) (Ok tt) x); [go; reflexivity | destruct (alike_value _ _ G) as (? & -> & ->); reflexivity] end.
Lemma free_lemma : forall d n s g po pi, s_cell s po pi "" = Some (VI g) -> (2 <= d)%nat ->
  runs s_group_c [] d n "MPI_Group_free" [VP po pi] s = Ok (VI 0, set_cell s po pi "" (Some (VI (MPI_Group_free g)))).
Proof. intros d n s g po pi H Hd. deep d Hd. straight p_group_ok. Qed.
Lemma incl_lemma : forall d n s g k o ranks po pi old, array s o ranks -> s_cell s po pi "" = Some old -> (2 <= d)%nat ->
  alike (fun m r => r = (VI 0, set_cell s po pi "" (Some (VI m)))) (MPI_Group_incl g k ranks) (runs s_group_c [] d n "MPI_Group_incl" [VI g; VI k; VP o 0; VP po pi] s).
Proof.
  intros d n s g k o ranks po pi old Ha H Hd. deep d Hd. start. rewrite p_group_ok.
  pose proof (array_get s o ranks 0 Ha ltac:(lia)) as A0. unfold MPI_Group_incl.
  destruct (arr_get ranks 0); try contradiction; go; compare.
Qed.
Lemma range_incl_lemma : forall d n s g k o row ranges po pi old, s_cell s o 0 "" = (match ranges with [] => None | _ => Some (VP row 0) end) ->
  (forall a b c r, ranges = (a, b, c) :: r -> array s row [a; b; c]) -> s_cell s po pi "" = Some old -> (2 <= d)%nat ->
  alike (fun m r => r = (VI 0, set_cell s po pi "" (Some (VI m)))) (MPI_Group_range_incl g k ranges) (runs s_group_c [] d n "MPI_Group_range_incl" [VI g; VI k; VP o 0; VP po pi] s).
Proof.
  intros d n s g k o row ranges po pi old Hr Ha H Hd. deep d Hd. start. rewrite p_group_ok.
  unfold MPI_Group_range_incl. destruct ranges as [|[[a b] c] r].
  - change (arr_get (@nil (Z * Z * Z)) 0) with (@UB (Z * Z * Z) "array index"). go; compare.
  - change (arr_get ((a, b, c) :: r) 0) with (Ok (a, b, c)). pose proof (Ha a b c r eq_refl) as A. pose proof (array_get s row [a; b; c] 0 A ltac:(lia)) as A0. pose proof (array_get s row [a; b; c] 1 A ltac:(lia)) as A1.
    change (s_cell s row 0 "" = Some (VI a)) in A0. change (s_cell s row 1 "" = Some (VI b)) in A1. go; compare.
Qed.
Lemma translate_lemma : forall d n s g1 k o1 ranks1 g2 o2 ranks2, array s o1 ranks1 -> array s o2 ranks2 -> o1 <> o2 -> k <= INT_MAX -> (2 <= d)%nat -> (Z.to_nat k < n)%nat ->
  alike (fun l r => fst r = VI 0 /\ array (snd r) o2 l /\ except [o2] s (snd r))
    (MPI_Group_translate_ranks g1 k ranks1 g2 ranks2) (runs s_group_c [] d n "MPI_Group_translate_ranks" [VI g1; VI k; VP o1 0; VI g2; VP o2 0] s).
Proof.
  intros d n s g1 k o1 ranks1 g2 o2 ranks2 H1 H2 Hne Hk Hd Hn. deep d Hd. start. rewrite p_group_ok.
  unfold MPI_Group_translate_ranks. 
  go; compare.
  - cbn. repeat split; auto.
  - eapply alike_bind_r.
    + apply (for_loop_turns (fun i l c => exists t, c = ([("i", VI i); ("group1", VI g1); ("n", VI k); ("ranks1", VP o1 0); ("group2", VI g2); ("ranks2", VP o2 0)], t) /\ array t o1 ranks1 /\ array t o2 l /\ except [o2] s t)); [ | |exact Hn|].
      * intros i l c Hi (t & -> & _). apply a_top. go. reflexivity.
      * intros i l c Hi (t & -> & A1 & A2 & X). apply a_top. pose proof (array_get t o1 ranks1 i A1 ltac:(lia)) as E1.
        pose proof (fun z => array_set t o2 l i z A2 ltac:(lia)) as E2.
        destruct (arr_get ranks1 i) as [r| | | |]; try contradiction; cbn [bind].
        2: { go; cbn [alike]; auto. }
        destruct (Z.eqb_spec r 0) as [->|N]; cbn [negb].
        -- destruct (Z.eqb_spec g2 (-1)) as [->|N]; cbn [negb]; cbv iota; unfold MPI_GROUP_EMPTY, MPI_UNDEFINED in *.
           ++ specialize (E2 (-1)). destruct (arr_set l i (-1)) as [l'| | | |]; try contradiction.
              ** destruct E2 as [[w Ew] E2]. go. cbn [alike]. eexists. split; [reflexivity|]. eexists. split; [reflexivity|]. split; [apply array_other; auto|]. split; [exact E2|]. apply except_set; cbn; auto.
              ** go; cbn [alike]; auto.
           ++ specialize (E2 0). pose proof (proj2 (Z.eqb_neq _ _) N) as Eg. destruct (arr_set l i 0) as [l'| | | |]; try contradiction.
              ** destruct E2 as [[w Ew] E2]. go. all: rewrite ?Eg in *; try discriminate. cbn [alike]. eexists. split; [reflexivity|]. eexists. split; [reflexivity|]. split; [apply array_other; auto|]. split; [exact E2|]. apply except_set; cbn; auto.
              ** go; rewrite ?Eg in *; try discriminate; cbn [alike]; auto.
        -- pose proof (proj2 (Z.eqb_neq _ _) N) as Er. go; rewrite ?Er in *; try discriminate. exact I.
      * exists s. repeat split; auto using except_refl.
    + intros l a (c' & j & -> & t & -> & A1 & A2 & X). go. cbn [alike fst snd]. auto.
Qed.

Lemma coords_lemma : forall d n s comm rank k o coords, array s o coords -> k <= INT_MAX -> (2 <= d)%nat -> (Z.to_nat k < n)%nat ->
  alike (fun l r => fst r = VI 0 /\ array (snd r) o l /\ except [o] s (snd r)) (MPI_Cart_coords comm rank k coords) (runs s_cart_c [] d n "MPI_Cart_coords" [VI comm; VI rank; VI k; VP o 0] s).
Proof.
  intros d n s comm rank k o coords H Hk Hd Hn. deep d Hd. start. rewrite p_cart_ok. unfold MPI_Cart_coords. go; compare.
  eapply alike_bind_r.
  - apply (for_loop_turns (fun i l c => exists t, c = ([("i", VI i); ("comm", VI comm); ("rank", VI rank); ("maxdims", VI k); ("coords", VP o 0)], t) /\ array t o l /\ except [o] s t)); [ | |exact Hn|].
    + intros i l c Hi (t & -> & _). apply a_top. go. reflexivity.
    + intros i l c Hi (t & -> & A & X). apply a_top. pose proof (array_set t o l i 0 A ltac:(lia)) as E.
      destruct (arr_set l i 0); try contradiction; [destruct E as [[w Ew] E]|]; go; cbn [alike]; auto.
      eexists. split; [reflexivity|]. eexists. split; [reflexivity|]. split; [exact E|]. apply except_set; cbn; auto.
    + exists s. repeat split; auto using except_refl.
  - intros l a (c' & j & -> & t & -> & A & X). go. cbn [alike fst snd]. auto.
Qed.
Lemma dims_lemma : forall d n s nnodes k o dims, array s o dims -> k <= INT_MAX -> (2 <= d)%nat -> (Z.to_nat k < n)%nat ->
  alike (fun l r => fst r = VI 0 /\ array (snd r) o l /\ except [o] s (snd r)) (MPI_Dims_create nnodes k dims) (runs s_cart_c [] d n "MPI_Dims_create" [VI nnodes; VI k; VP o 0] s).
Proof.
  intros d n s nnodes k o dims H Hk Hd Hn. deep d Hd. start. rewrite p_cart_ok. unfold MPI_Dims_create. rewrite Z.gtb_ltb. go; compare.
  eapply alike_bind_r.
  - apply (for_loop_turns (fun i l c => exists t, c = ([("i", VI i); ("nnodes", VI nnodes); ("ndims", VI k); ("dims", VP o 0)], t) /\ array t o l /\ except [o] s t)); [ | |exact Hn|].
    + intros i l c Hi (t & -> & _). apply a_top. go. reflexivity.
    + intros i l c Hi (t & -> & A & X). apply a_top. pose proof (array_set t o l i 1 A ltac:(lia)) as E.
      destruct (arr_set l i 1); try contradiction; [destruct E as [[w Ew] E]|]; go; cbn [alike]; auto.
      eexists. split; [reflexivity|]. eexists. split; [reflexivity|]. split; [exact E|]. apply except_set; cbn; auto.
    + exists s. repeat split; auto using except_refl.
  - intros l a (c' & j & -> & t & -> & A & X). go. cbn [alike fst snd]. auto.
Qed.
Lemma get_lemma : forall d n s comm k o1 dims po pi periods o2 coords, array s o1 dims -> array s o2 coords -> o1 <> o2 -> k <= INT_MAX -> (2 <= d)%nat -> (Z.to_nat k < n)%nat ->
  alike (fun l r => fst r = VI 0 /\ array (snd r) o1 (fst (fst l)) /\ snd (fst l) = periods /\ array (snd r) o2 (snd l) /\ except [o1; o2] s (snd r))
    (MPI_Cart_get comm k dims periods coords) (runs s_cart_c [] d n "MPI_Cart_get" [VI comm; VI k; VP o1 0; VP po pi; VP o2 0] s).
Proof.
  intros d n s comm k o1 dims po pi periods o2 coords H1 H2 Hne Hk Hd Hn. deep d Hd. start. rewrite p_cart_ok. unfold MPI_Cart_get. go; compare.
  eapply alike_bind_r.
  - apply (for_loop_turns (fun i l c => exists t, c = ([("i", VI i); ("comm", VI comm); ("maxdims", VI k); ("dims", VP o1 0); ("periods", VP po pi); ("coords", VP o2 0)], t) /\ array t o1 (fst (fst l)) /\ snd (fst l) = periods /\ array t o2 (snd l) /\ except [o1; o2] s t)); [ | |exact Hn|].
    + intros i l c Hi (t & -> & _). apply a_top. go. reflexivity.
    + intros i [[l1 per] l2] c Hi (t & -> & A1 & P & A2 & X). cbn [fst snd] in *. subst per. apply a_top. pose proof (array_set t o1 l1 i 1 A1 ltac:(lia)) as E.
      destruct (arr_set l1 i 1) as [l1'| | | |]; try contradiction; [destruct E as [[w Ew] E]|]; cbn [bind]; [|go; cbn [alike]; auto].
      pose proof (array_set (set_cell t o1 i "" (Some (VI 1))) o2 l2 i 0 ltac:(apply array_other; auto) ltac:(lia)) as F.
      destruct (arr_set l2 i 0) as [l2'| | | |]; try contradiction; [destruct F as [[w' Ew'] F]|]; go; cbn [alike bind]; auto.
      eexists. split; [reflexivity|]. eexists. split; [reflexivity|]. cbn [fst snd]. split; [apply array_other; auto|]. split; [reflexivity|]. split; [exact F|]. apply except_set; [cbn; auto|]. apply except_set; cbn; auto.
    + exists s. cbn [fst snd]. split; [reflexivity|]. repeat split; auto using except_refl.
  - intros l a (c' & j & -> & t & -> & A & P & X). go. cbn [alike fst snd]. auto.
Qed.

(** The small ones. *)
Lemma op_create_lemma : forall d n s f commute po pi old, f <> VU -> s_cell s po pi "" = Some (VI old) -> (2 <= d)%nat ->
  runs s_op_c [] d n "MPI_Op_create" [f; VI commute; VP po pi] s = Ok (VI (fst (StubModel.MPI_Op_create commute old)), set_cell s po pi "" (Some (VI (snd (StubModel.MPI_Op_create commute old))))).
Proof. intros d n s f commute po pi old Hf H Hd. deep d Hd. straight p_op_ok. Qed.
Lemma op_free_lemma : forall d n s v, (2 <= d)%nat -> runs s_op_c [] d n "MPI_Op_free" [v] s = Ok (VI 0, s).
Proof. intros d n s v Hd. deep d Hd. straight p_op_ok. Qed.
Lemma info_create_lemma : forall d n s po pi old, s_cell s po pi "" = Some (VI old) -> (2 <= d)%nat ->
  runs s_info_c [] d n "MPI_Info_create" [VP po pi] s = Ok (VI (fst (StubModel.MPI_Info_create old)), set_cell s po pi "" (Some (VI (snd (StubModel.MPI_Info_create old))))).
Proof. intros d n s po pi old H Hd. deep d Hd. straight p_info_ok. Qed.
Lemma info_free_lemma : forall d n s po pi old, s_cell s po pi "" = Some (VI old) -> (2 <= d)%nat ->
  runs s_info_c [] d n "MPI_Info_free" [VP po pi] s = Ok (VI (fst (StubModel.MPI_Info_free old)), set_cell s po pi "" (Some (VI (snd (StubModel.MPI_Info_free old))))).
Proof. intros d n s po pi old H Hd. deep d Hd. straight p_info_ok. Qed.
Lemma info_set_lemma : forall d n s info key value, (2 <= d)%nat -> runs s_info_c [] d n "MPI_Info_set" [info; key; value] s = Ok (VI 0, s).
Proof. intros d n s info key value Hd. deep d Hd. straight p_info_ok. Qed.
Lemma errhandler_lemma : forall d n s comm handle, (2 <= d)%nat -> runs s_error_c [] d n "MPI_Errhandler_set" [comm; handle] s = Ok (VI 0, s).
Proof. intros d n s comm handle Hd. deep d Hd. straight p_error_ok. Qed.
Lemma merge_lemma : forall d n s comm high v, (2 <= d)%nat -> runs s_ic_merge_c [] d n "MPI_Intercomm_merge" [comm; high; v] s = Ok (VI 0, s).
Proof. intros d n s comm high v Hd. deep d Hd. straight p_merge_ok. Qed.
Lemma handles_lemma : forall d n s h t f, (2 <= d)%nat ->
  In (t, f) [(s_group_c, "MPI_Group_f2c"); (s_group_c, "MPI_Group_c2f"); (s_comm_c, "MPI_Comm_f2c"); (s_comm_c, "MPI_Comm_c2f"); (s_req_c, "MPI_Request_f2c"); (s_req_c, "MPI_Request_c2f"); (s_collective_c, "MPI_Op_f2c"); (s_collective_c, "MPI_Op_c2f")] ->
  runs t [] d n f [VI h] s = Ok (VI h, s).
Proof.
  intros d n s h t f Hd. deep d Hd. cbn [In].
  intros [E|[E|[E|[E|[E|[E|[E|[E|[]]]]]]]]]; injection E as <- <-; [straight p_group_ok|straight p_group_ok|straight p_comm_ok|straight p_comm_ok|straight p_req_ok|straight p_req_ok|straight p_coll_ok|straight p_coll_ok].
Qed.
Lemma count_lemma : forall d n s so z dt po pi old, s_cell s so 0 "get_count" = Some (VI z) -> s_cell s po pi "" = Some old -> (2 <= d)%nat ->
  runs s_getcount_c [] d n "MPI_Get_count" [VP so 0; dt; VP po pi] s = Ok (VI 0, set_cell s po pi "" (Some (VI z))).
Proof. intros d n s so z dt po pi old H H2 Hd. deep d Hd. straight p_count_ok. Qed.
