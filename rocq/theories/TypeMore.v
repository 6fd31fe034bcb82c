(** Lemmas: markers, sizes and empty types. *)
From Verif Require Import Base TypeModel TypeSpec TypeProofs TypeStruct TypeCons TypeTree.

(** *** Sizes *)
Lemma map_size_app c a b : map_size c (a ++ b) = map_size c a + map_size c b.
Proof.
  induction a as [|e a IH]; [reflexivity|]. unfold map_size in *. cbn [app map fold_right]. rewrite IH. lia.
Qed.
Lemma map_size_shift c d m : map_size c (shift d m) = map_size c m.
Proof.
  induction m as [|e m IH]; [reflexivity|]. unfold map_size in *. cbn [shift map fold_right]. unfold shift in IH. rewrite IH. reflexivity.
Qed.
Lemma map_size_copies c n ext d m : map_size c (copies n ext d m) = Z.max 0 n * map_size c m.
Proof.
  unfold copies. assert (H : forall l : list Z,
    map_size c (flat_map (fun j => shift (d + j * ext) m) l) = Z.of_nat (length l) * map_size c m).
  { induction l as [|x l IH]; [reflexivity|]. cbn [flat_map length]. rewrite map_size_app, IH, map_size_shift.
    rewrite Nat2Z.inj_succ. ring. }
  rewrite H, upto_length. f_equal. lia.
Qed.

Lemma map_size_struct c bs : map_size c (struct_map bs) =
  fold_right Z.add 0 (map (fun b => Z.max 0 (sb_len b) * map_size c (sb_map b)) bs).
Proof.
  induction bs as [|b bs IH]; [reflexivity|]. unfold struct_map in *. cbn [flat_map map fold_right].
  rewrite map_size_app, IH, map_size_copies. reflexivity.
Qed.

Lemma wf_size c t : cfg_ok c -> wf_ts c t -> map_size c (typemap t) <= INT_MAX ->
  Type_size c t = Ok (map_size c (typemap t)).
Proof.
  intros CO W H. apply Type_size_ok; auto.
  - destruct (wf_count _ _ W), (wf_pairs _ _ W). lia.
  - apply (wf_known _ _ W).
Qed.

(** *** Markers *)
Lemma u64_nonneg d : 0 <= d <= LONG_MAX -> to_u64 d = d.
Proof. intros H. apply to_u64_id. unfold TWO64, LONG_MAX in *. lia. Qed.
Lemma u64_neg d : LONG_MIN <= d < 0 -> to_u64 d = d + TWO64.
Proof.
  intros H. rewrite (to_u64_cong d (d + TWO64) (-1)) by ring. apply to_u64_id. unfold TWO64, LONG_MIN in *. lia.
Qed.
Lemma s64_high d : LONG_MIN <= d < 0 -> to_s64 (d + TWO64) = d.
Proof.
  intros H. rewrite (to_s64_cong (d + TWO64) d 1) by ring. apply to_s64_id. unfold LONG_MIN, LONG_MAX in *. lia.
Qed.

(** Displacements of the LB / UB marker blocks. *)
Lemma fold_min_u64 l : (forall d, In d l -> is_long d) ->
  fold_left Z.min (map to_u64 l) LONG_MAX = fold_left Z.min (filter (fun d => 0 <=? d) l) LONG_MAX.
Proof.
  assert (G : forall a, 0 <= a <= LONG_MAX -> (forall d, In d l -> is_long d) ->
     fold_left Z.min (map to_u64 l) a = fold_left Z.min (filter (fun d => 0 <=? d) l) a).
  { induction l as [|d l IH]; intros a Ha H; [reflexivity|]. cbn [map fold_left filter].
    assert (Hd := H d (or_introl eq_refl)). unfold is_long in Hd.
    destruct (Z.leb_spec 0 d).
    - cbn [fold_left]. rewrite u64_nonneg by lia. apply IH; [lia|]. intros; apply H; right; auto.
    - rewrite u64_neg by lia. rewrite Z.min_l by (unfold TWO64, LONG_MIN, LONG_MAX in *; lia).
      apply IH; [lia|]. intros; apply H; right; auto. }
  intros H. apply G; [unfold LONG_MAX; lia|exact H].
Qed.

Lemma fold_max_u64 l : (forall d, In d l -> is_long d) ->
  to_s64 (fold_left Z.max (map to_u64 l) (to_u64 LONG_MIN)) = fold_left Z.max (filter (fun d => d <? 0) l) LONG_MIN.
Proof.
  assert (G : forall a, LONG_MIN <= a < 0 -> (forall d, In d l -> is_long d) ->
     exists b, LONG_MIN <= b < 0 /\ fold_left Z.max (map to_u64 l) (a + TWO64) = b + TWO64 /\
       fold_left Z.max (filter (fun d => d <? 0) l) a = b).
  { induction l as [|d l IH]; intros a Ha H; [exists a; auto|]. cbn [map fold_left filter].
    assert (Hd := H d (or_introl eq_refl)). unfold is_long in Hd.
    destruct (Z.ltb_spec d 0).
    - cbn [fold_left]. rewrite u64_neg by lia. rewrite Z.add_max_distr_r. apply IH; [lia|]. intros; apply H; right; auto.
    - rewrite u64_nonneg by lia. rewrite Z.max_l by (unfold TWO64, LONG_MIN, LONG_MAX in *; lia).
      apply IH; [lia|]. intros; apply H; right; auto. }
  intros H. destruct (G LONG_MIN ltac:(unfold LONG_MIN; lia) H) as (b & Hb & E1 & E2).
  rewrite (u64_neg LONG_MIN) by (unfold LONG_MIN; lia). rewrite E1, E2. apply s64_high. exact Hb.
Qed.

Lemma lower_upper t : is_lower t = true -> is_upper t = false.
Proof.
  unfold is_lower, is_upper. destruct (ts_pairs t) as [|p r]; [discriminate|]. intros H.
  apply Z.eqb_eq in H. rewrite H. reflexivity.
Qed.

Lemma own_cands bs : own_markers bs ->
  flat_map lb_cands1 bs = map to_u64 (lb_disps bs) /\ flat_map ub_cands1 bs = map to_u64 (ub_disps bs) /\
  flat_map lb_cands2 bs = [] /\ flat_map ub_cands2 bs = [] /\
  (lb_disps bs <> [] -> existsb lb_flag bs = true) /\ (ub_disps bs <> [] -> existsb ub_flag bs = true).
Proof.
  induction 1 as [|b bs H HF (I1 & I2 & I3 & I4 & I5 & I6)]; [repeat split; auto; intros X; exfalso; apply X; reflexivity|].
  unfold lb_disps, ub_disps in *. cbn [flat_map filter existsb].
  assert (X2 : lb_cands2 b = [] /\ ub_cands2 b = []).
  { unfold lb_cands2, ub_cands2. destruct H as [->|(M & L & U)]; [auto|]. rewrite L, U. cbn [Z.eqb].
    rewrite !orb_true_r. auto. }
  destruct X2 as [-> ->]. rewrite I1, I2, I3, I4.
  unfold lb_cands1, ub_cands1, lb_flag at 1, ub_flag at 1.
  destruct (is_lower (ib_old b)) eqn:EL.
  - rewrite (lower_upper _ EL). cbn [map app orb negb andb]. repeat split; auto.
  - destruct (is_upper (ib_old b)) eqn:EU; cbn [map app orb negb andb]; repeat split; auto; intros X;
      (rewrite (I5 X) || rewrite (I6 X)); apply orb_true_r.
Qed.

Section Markers.
Variable c : cfg.
Hypothesis CO : cfg_ok c.

Lemma markers_ok jk bs r1 r2 :
  Forall (struct_arg_ok c) bs -> Z.of_nat (length (struct_map (map sblock_of bs))) <= INT_MAX ->
  map_fits c (struct_map (map sblock_of bs)) -> own_markers bs ->
  (forall b, In b bs -> is_long (ib_disp b)) ->
  exists t, Type_struct c jk (Z.of_nat (length bs)) (map ib_len bs ++ r1)
              (map (fun b => to_u64 (ib_disp b)) bs ++ r2) (map ib_old bs) = Ok t /\
    (lb_disps bs <> [] -> ts_lb t = fold_left Z.min (filter (fun d => 0 <=? d) (lb_disps bs)) LONG_MAX) /\
    (ub_disps bs <> [] -> ts_ub t = fold_left Z.max (filter (fun d => d <? 0) (ub_disps bs)) LONG_MIN) /\
    (lb_disps bs <> [] \/ ub_disps bs <> [] -> is_long (ts_ub t - ts_lb t) ->
       Type_extent c t = Ok (to_u64 (ts_ub t - ts_lb t))).
Proof.
  intros HA HL FIT OM HD.
  assert (HB : Forall (block_ok c) bs) by (eapply Forall_impl; [|exact HA]; apply arg_block).
  assert (HK : elems_known c bs).
  { intros b e Hb M He. eapply arg_known; eauto. rewrite Forall_forall in HA. auto. }
  assert (HT : total bs <= INT_MAX) by (rewrite (total_length c bs HA); exact HL).
  destruct (Type_struct_ok c jk bs r1 r2 CO HB HK HT FIT)
    as (t & E & _ & _ & _ & _ & Hol & Hou & L1 & U1 & _ & _ & _ & _ & _).
  destruct (own_cands bs OM) as (C1 & C2 & C3 & C4 & F1 & F2).
  exists t. split; [exact E|]. split; [|split].
  - intros NE. rewrite (L1 (F1 NE)). unfold ov_lb. rewrite C1, C3, ?app_nil_r. cbn [fold_left].
    rewrite fold_min_u64.
    + apply to_s64_id. set (l := filter _ _).
      destruct (fold_min_spec l LONG_MAX) as (A & B & _).
      split; [|exact B]. destruct A as [->|A]; [unfold LONG_MAX, LONG_MIN; lia|].
      unfold l in A at 2. apply filter_In in A. destruct A as [_ A]. apply Z.leb_le in A. unfold LONG_MIN. lia.
    + intros d Hd. apply in_map_iff in Hd. destruct Hd as (b & <- & Hb). apply filter_In in Hb. apply HD. apply Hb.
  - intros NE. rewrite (U1 (F2 NE)). unfold ov_ub. rewrite C2, C4, ?app_nil_r. cbn [fold_left].
    apply fold_max_u64.
    intros d Hd. apply in_map_iff in Hd. destruct Hd as (b & <- & Hb). apply filter_In in Hb. apply HD. apply Hb.
  - intros NE HE. apply extent_overridden; auto. rewrite Hol, Hou. destruct NE as [NE|NE].
    + left. rewrite (F1 NE). discriminate.
    + right. rewrite (F2 NE). discriminate.
Qed.
End Markers.

(** *** Extent of a freshly built type for arbitrary uninitialised storage *)
Lemma junk_extent c jk m t : cfg_ok c -> struct_result c jk m t -> plain_result c jk m t ->
  m <> [] -> (forall e, In e m -> is_int (snd e)) ->
  exists lb ub x, is_lb m lb /\ is_ub c m ub /\ Type_extent c t = Ok x /\
    (j_olb jk = 0 /\ j_oub jk = 0 -> is_extent c m x) /\
    (j_olb jk <> 0 \/ j_oub jk <> 0 -> x = ub - lb).
Proof.
  intros CO S P NE HI. exists (ts_lb t), (ts_ub t).
  destruct (Z.eq_dec (j_olb jk) 0) as [E1|N1]; [destruct (Z.eq_dec (j_oub jk) 0) as [E2|N2]|].
  - destruct (plain_extent c CO jk m t S P E1 E2 NE HI) as (x & E & R & X).
    exists x. split; [apply (pr_lb _ _ _ _ P); auto|]. split; [apply (pr_ub _ _ _ _ P); auto|]. split; [exact E|].
    split; [auto|]. intros [H|H]; congruence.
  - assert (L := pr_lb _ _ _ _ P NE HI). assert (U := pr_ub _ _ _ _ P NE HI).
    assert (K : forall e, In e m -> known c e) by (rewrite <- (sr_map _ _ _ _ S); apply (wf_known _ _ (sr_wf _ _ _ _ S))).
    assert (SR := span_range c CO m _ _ K HI L U).
    exists (ts_ub t - ts_lb t). split; [exact L|]. split; [exact U|]. split.
    + rewrite extent_overridden.
      * f_equal. apply to_u64_id. unfold TWO64. lia.
      * right. rewrite (pr_oub _ _ _ _ P). exact N2.
      * unfold is_long, LONG_MIN, LONG_MAX. lia.
    + split; [intros [_ H]; congruence|auto].
  - assert (L := pr_lb _ _ _ _ P NE HI). assert (U := pr_ub _ _ _ _ P NE HI).
    assert (K : forall e, In e m -> known c e) by (rewrite <- (sr_map _ _ _ _ S); apply (wf_known _ _ (sr_wf _ _ _ _ S))).
    assert (SR := span_range c CO m _ _ K HI L U).
    exists (ts_ub t - ts_lb t). split; [exact L|]. split; [exact U|]. split.
    + rewrite extent_overridden.
      * f_equal. apply to_u64_id. unfold TWO64. lia.
      * left. rewrite (pr_olb _ _ _ _ P). exact N1.
      * unfold is_long, LONG_MIN, LONG_MAX. lia.
    + split; [intros [H _]; congruence|auto].
Qed.
