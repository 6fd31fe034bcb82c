(** Lemmas: the derived type constructors and nested types. *)
From Verif Require Import Base TypeModel TypeSpec TypeProofs TypeStruct.

Lemma copies_length n ext d m : Z.of_nat (length (copies n ext d m)) = Z.max 0 n * Z.of_nat (length m).
Proof.
  unfold copies.
  assert (H : forall l : list Z, length (flat_map (fun j => shift (d + j * ext) m) l) = (length l * length m)%nat).
  { induction l as [|x l IH]; [reflexivity|]. cbn [flat_map]. rewrite app_length, IH.
    unfold shift. rewrite map_length. reflexivity. }
  rewrite H, upto_length. rewrite Nat2Z.inj_mul. f_equal. lia.
Qed.

Lemma typemap_length t : 0 <= ts_count t <= Z.of_nat (length (ts_pairs t)) ->
  Z.of_nat (length (typemap t)) = ts_count t.
Proof. intros H. unfold typemap. rewrite map_length, firstn_length. lia. Qed.

Section Cons.
Variable c : cfg.
Hypothesis CO : cfg_ok c.

Lemma arg_block b : struct_arg_ok c b -> block_ok c b.
Proof.
  intros [M|(L & W & M & E)]; split.
  - unfold marker, is_marker, is_lower, is_upper in M. destruct (ts_pairs (ib_old b)); [discriminate M|discriminate].
  - congruence.
  - destruct (wf_pairs _ _ W) as [P _]. destruct (ts_pairs (ib_old b)); [simpl in P; lia|discriminate].
  - intros _. destruct (wf_count _ _ W), (wf_pairs _ _ W). repeat split; auto; lia.
Qed.

Lemma arg_known b e : struct_arg_ok c b -> marker b = false -> In e (typemap (ib_old b)) -> known c e.
Proof. intros [M|(L & W & M & E)] M' He; [congruence|]. apply (wf_known _ _ W e He). Qed.

Lemma total_length bs : Forall (struct_arg_ok c) bs ->
  total bs = Z.of_nat (length (struct_map (map sblock_of bs))).
Proof.
  induction 1 as [|b bs H HF IH]; [reflexivity|].
  cbn [map struct_map flat_map]. rewrite app_length, Nat2Z.inj_add.
  unfold total. cbn [map fold_right]. fold (total bs). rewrite IH. f_equal.
  rewrite copies_length. cbn [sblock_of sb_len sb_map]. unfold bcount.
  destruct (marker b) eqn:M; [simpl; lia|].
  destruct H as [M'|(L & W & _ & _)]; [congruence|].
  rewrite typemap_length by (destruct (wf_count _ _ W), (wf_pairs _ _ W); lia). rewrite Z.max_r by lia. reflexivity.
Qed.

Lemma first_of_map t e m : typemap t = e :: m -> exists p r, ts_pairs t = p :: r /\ tp_type p = fst e.
Proof.
  unfold typemap. destruct (ts_pairs t) as [|p r]; [rewrite firstn_nil; discriminate|].
  destruct (Z.to_nat (ts_count t)) as [|n]; [discriminate|]. cbn [firstn map]. intros E. injection E as E1 E2.
  exists p, r. split; [reflexivity|]. subst e. reflexivity.
Qed.

Lemma known_not_marker t : typemap t <> [] -> (forall e, In e (typemap t) -> known c e) -> is_marker t = false.
Proof.
  intros NE K. destruct (typemap t) as [|e m] eqn:E; [congruence|].
  destruct (first_of_map _ _ _ E) as (p & r & Ep & Et). destruct (K e (or_introl eq_refl)) as (s & Es).
  unfold is_marker, is_lower, is_upper. rewrite Ep, Et.
  destruct (Z.eqb_spec (fst e) 12) as [E12|_]; [rewrite E12 in Es; discriminate Es|].
  destruct (Z.eqb_spec (fst e) 13) as [E13|_]; [rewrite E13 in Es; discriminate Es|]. reflexivity.
Qed.

Lemma lb_flag_clear b : no_override (ib_old b) -> lb_flag b = false /\ ub_flag b = false.
Proof.
  intros (M & L & U). unfold is_marker in M. apply orb_false_iff in M. destruct M as [M1 M2].
  unfold lb_flag, ub_flag. rewrite M1, M2, L, U. auto.
Qed.

Lemma flags_clear bs : Forall (fun b => no_override (ib_old b)) bs ->
  existsb lb_flag bs = false /\ existsb ub_flag bs = false.
Proof.
  induction 1 as [|b bs H HF [IH1 IH2]]; [auto|]. destruct (lb_flag_clear b H) as [A B].
  cbn [existsb]. rewrite A, B, IH1, IH2. auto.
Qed.

Lemma is_int_fits m : (forall e, In e m -> known c e) -> (forall e, In e m -> is_int (snd e)) -> map_fits c m.
Proof.
  intros K H e He. destruct (known_size c CO e (K e He)) as [_ R]. specialize (H e He).
  unfold is_int, is_long, INT_MIN, INT_MAX, LONG_MIN, LONG_MAX in *. lia.
Qed.

(** What Type_struct yields for a list of blocks. *)
Record struct_result (jk : tjunk) (m : list elem) (t : typestruct) : Prop := {
  sr_map : typemap t = m;
  sr_wf : wf_ts c t;
  sr_comm : ts_committed t = 0;
  sr_count : ts_count t = Z.of_nat (length m);
  sr_long : is_long (ts_lb t) /\ is_long (ts_ub t)
}.
Record plain_result (jk : tjunk) (m : list elem) (t : typestruct) : Prop := {
  pr_olb : ts_olb t = j_olb jk;
  pr_oub : ts_oub t = j_oub jk;
  pr_lb : m <> [] -> (forall e, In e m -> is_int (snd e)) -> is_lb m (ts_lb t);
  pr_ub : m <> [] -> (forall e, In e m -> is_int (snd e)) -> is_ub c m (ts_ub t)
}.

Lemma struct_ok jk bs r1 r2 :
  Forall (struct_arg_ok c) bs -> Z.of_nat (length (struct_map (map sblock_of bs))) <= INT_MAX ->
  map_fits c (struct_map (map sblock_of bs)) ->
  exists t, Type_struct c jk (Z.of_nat (length bs)) (map ib_len bs ++ r1)
              (map (fun b => to_u64 (ib_disp b)) bs ++ r2) (map ib_old bs) = Ok t /\
    struct_result jk (struct_map (map sblock_of bs)) t /\
    (Forall (fun b => no_override (ib_old b)) bs -> plain_result jk (struct_map (map sblock_of bs)) t).
Proof.
  intros HA HL FIT.
  assert (HB : Forall (block_ok c) bs) by (eapply Forall_impl; [|exact HA]; apply arg_block).
  assert (HK : elems_known c bs).
  { intros b e Hb M He. eapply arg_known; eauto. rewrite Forall_forall in HA. auto. }
  rewrite <- (total_length bs HA) in HL.
  destruct (Type_struct_ok c jk bs r1 r2 CO HB HK HL FIT)
    as (t & E & Hm & Hc & Hp & Hcm & Hol & Hou & _ & _ & Hlb & Hub & LL & LU & _).
  rewrite (total_length bs HA) in HL.
  assert (KM : forall e, In e (struct_map (map sblock_of bs)) -> known c e).
  { intros e He. destruct (struct_known bs e He) as (b & e0 & Hb & M & H0 & E0). unfold known. rewrite <- E0. eapply HK; eauto. }
  exists t. split; [exact E|]. split.
  - constructor; auto. constructor.
    + lia.
    + lia.
    + rewrite Hm. exact KM.
    + rewrite Hm. intros e He. apply FIT. auto.
  - intros NO. destruct (flags_clear bs NO) as [F1 F2]. rewrite F1 in *. rewrite F2 in *.
    constructor; auto.
    + intros NE HI. rewrite (Hlb eq_refl HI). apply fold_min_is_min.
      * intros E0. apply map_eq_nil in E0. auto.
      * intros x Hx. apply in_map_iff in Hx. destruct Hx as (e & <- & He). apply HI. auto.
    + intros NE HI. rewrite (Hub eq_refl). apply fold_max_is_max.
      * intros E0. apply map_eq_nil in E0. auto.
      * intros x Hx. apply in_map_iff in Hx. destruct Hx as (e & <- & He). destruct (HI e He).
        destruct (known_size c CO e (KM e He)). lia.
Qed.

(** *** Constructors with a single old type *)
Definition blocks_of (old : typestruct) (ext : Z) (bds : list (Z * Z)) : list iblock :=
  map (fun bd => mkIb (fst bd) (snd bd) old ext) bds.

Lemma blocks_of_map old ext bds : is_marker old = false ->
  struct_map (map sblock_of (blocks_of old ext bds)) = hindexed_map bds ext (typemap old).
Proof.
  intros M. unfold blocks_of, struct_map, hindexed_map. rewrite map_map, flat_map_concat_map, map_map, flat_map_concat_map.
  f_equal. apply map_ext. intros [b d]. cbn [fst snd]. unfold sblock_of, marker. cbn [ib_old ib_len ib_disp ib_ext].
  rewrite M. reflexivity.
Qed.

Lemma same_old jk old ext bds r1 r2 n : data_type c old ext -> Forall (fun bd => int_nonneg (fst bd)) bds ->
  n = Z.of_nat (length bds) ->
  Z.of_nat (length (hindexed_map bds ext (typemap old))) <= INT_MAX ->
  map_fits c (hindexed_map bds ext (typemap old)) ->
  exists t, Type_struct c jk n (map fst bds ++ r1)
              (map (fun bd => to_u64 (snd bd)) bds ++ r2) (tabulate n (fun _ => old)) = Ok t /\
    struct_result jk (hindexed_map bds ext (typemap old)) t /\
    (no_override old -> plain_result jk (hindexed_map bds ext (typemap old)) t).
Proof.
  intros D HF -> HL FIT. assert (D' := D). destruct D' as (W & M & E).
  assert (BM := blocks_of_map old ext bds M). rewrite <- BM in *.
  assert (HA : Forall (struct_arg_ok c) (blocks_of old ext bds)).
  { unfold blocks_of. apply Forall_map. eapply Forall_impl; [|exact HF]. intros [b d] Hb. right. split; [exact Hb|exact D]. }
  destruct (struct_ok jk (blocks_of old ext bds) r1 r2 HA HL FIT) as (t & ET & S & P).
  exists t. split; [|split; [exact S|]].
  - rewrite <- ET. unfold blocks_of. rewrite !map_map, map_length. f_equal.
    unfold tabulate. rewrite Nat2Z.id. clear. generalize 0%nat. induction bds as [|b bds IH]; intros k; [reflexivity|].
    cbn [length List.seq map]. f_equal. apply IH.
  - intros NO. apply P. unfold blocks_of. apply Forall_map. apply Forall_forall. intros; exact NO.
Qed.

Lemma tabulate_upto {A} n (f : Z -> A) : tabulate n f = map f (upto n).
Proof. unfold tabulate, upto. rewrite map_map. reflexivity. Qed.

Lemma vla_ok n : 0 <= n -> vla n = Ok tt.
Proof. intros H. unfold vla. destruct (Z.ltb_spec n 0); [lia|reflexivity]. Qed.

(** hindexed *)
Lemma hindexed_ok jk old ext bds r1 r2 : data_type c old ext -> Forall (fun bd => int_nonneg (fst bd)) bds ->
  Z.of_nat (length (hindexed_map bds ext (typemap old))) <= INT_MAX ->
  map_fits c (hindexed_map bds ext (typemap old)) ->
  exists t, Type_hindexed c jk (Z.of_nat (length bds)) (map fst bds ++ r1)
              (map (fun bd => to_u64 (snd bd)) bds ++ r2) old = Ok t /\
    struct_result jk (hindexed_map bds ext (typemap old)) t /\
    (no_override old -> plain_result jk (hindexed_map bds ext (typemap old)) t).
Proof.
  intros D HF HL FIT. unfold Type_hindexed. rewrite vla_ok by lia. cbn [bind]. apply same_old; auto.
Qed.

(** hvector *)
Lemma hvector_bds n bl s ext m :
  hvector_map n bl s ext m = hindexed_map (map (fun i => (bl, i * s)) (upto n)) ext m.
Proof.
  unfold hvector_map, hindexed_map. rewrite !flat_map_concat_map, map_map. reflexivity.
Qed.

Lemma hvector_ok jk old ext n bl s s' : data_type c old ext -> int_nonneg n -> int_nonneg bl ->
  to_u64 s' = to_u64 s ->
  Z.of_nat (length (hvector_map n bl s ext (typemap old))) <= INT_MAX ->
  map_fits c (hvector_map n bl s ext (typemap old)) ->
  exists t, Type_hvector c jk n bl s' old = Ok t /\
    struct_result jk (hvector_map n bl s ext (typemap old)) t /\
    (no_override old -> plain_result jk (hvector_map n bl s ext (typemap old)) t).
Proof.
  intros D Hn Hb Hs HL FIT. rewrite hvector_bds in *. unfold Type_hvector.
  rewrite vla_ok by (destruct Hn; lia). assert (D' := D). destruct D' as (W & M & E). cbn [bind]. rewrite E. cbn [bind].
  destruct (same_old jk old ext (map (fun i => (bl, i * s)) (upto n)) [] [] n D) as (t & ET & R); auto.
  - apply Forall_map. apply Forall_forall. intros; exact Hb.
  - rewrite map_length, upto_length. destruct Hn. lia.
  - exists t. split; [|exact R]. rewrite <- ET. rewrite !app_nil_r, !map_map, !tabulate_upto. cbn [fst snd].
    f_equal. apply map_ext. intros i.
    assert (Q : forall a b k, to_u64 a = to_u64 b -> to_u64 (a * k) = to_u64 (k * b)).
    { intros a b k Hab. destruct (to_u64_ex a) as (x & Ex). destruct (to_u64_ex b) as (y & Ey).
      apply (to_u64_cong _ _ (k * (y - x))). nia. }
    apply Q. exact Hs.
Qed.

(** contiguous *)
Lemma copies_one ext d m : copies 1 ext d m = shift d m.
Proof.
  unfold copies. change (upto 1) with [0]. cbn [flat_map]. rewrite app_nil_r. unfold shift.
  apply map_ext. intros e. f_equal. lia.
Qed.

Lemma contiguous_hvector n ext m : contiguous_map n ext m = hvector_map n 1 ext ext m.
Proof.
  unfold contiguous_map, hvector_map, copies at 1. apply flat_map_ext. intros i. rewrite copies_one. f_equal.
Qed.

Lemma contiguous_ok jk old ext n : data_type c old ext -> int_nonneg n ->
  Z.of_nat (length (contiguous_map n ext (typemap old))) <= INT_MAX ->
  map_fits c (contiguous_map n ext (typemap old)) ->
  exists t, Type_contiguous c jk n old = Ok t /\
    struct_result jk (contiguous_map n ext (typemap old)) t /\
    (no_override old -> plain_result jk (contiguous_map n ext (typemap old)) t).
Proof.
  intros D Hn HL FIT. rewrite contiguous_hvector in *.
  assert (U : to_u64 (to_u64 ext) = to_u64 ext) by (apply to_u64_id; apply to_u64_range).
  destruct (hvector_ok jk old ext n 1 ext (to_u64 ext) D Hn ltac:(unfold int_nonneg, INT_MAX; lia) U HL FIT) as (t & ET & R).
  exists t. split; [|exact R]. rewrite <- ET. unfold Type_contiguous, Type_hvector.
  rewrite vla_ok by (destruct Hn; lia). destruct D as (W & M & E). cbn [bind]. rewrite E. reflexivity.
Qed.

(** vector *)
Lemma vector_hvector n bl s ext m : vector_map n bl s ext m = hvector_map n bl (s * ext) ext m.
Proof. reflexivity. Qed.

Lemma u64_mul a b : to_u64 (to_u64 a * to_u64 b) = to_u64 (a * b).
Proof.
  destruct (to_u64_ex a) as (x & Ex). destruct (to_u64_ex b) as (y & Ey). rewrite Ex, Ey.
  apply (to_u64_cong _ _ (x * b + y * a + x * y * TWO64)). ring.
Qed.
Lemma u64_idem a : to_u64 (to_u64 a) = to_u64 a.
Proof. apply to_u64_id. apply to_u64_range. Qed.

Lemma vector_ok jk old ext n bl s : data_type c old ext -> int_nonneg n -> int_nonneg bl ->
  Z.of_nat (length (vector_map n bl s ext (typemap old))) <= INT_MAX ->
  map_fits c (vector_map n bl s ext (typemap old)) ->
  exists t, Type_vector c jk n bl s old = Ok t /\
    struct_result jk (vector_map n bl s ext (typemap old)) t /\
    (no_override old -> plain_result jk (vector_map n bl s ext (typemap old)) t).
Proof.
  intros D Hn Hb HL FIT. rewrite vector_hvector in *. unfold Type_vector. assert (D' := D). destruct D' as (W & M & E).
  rewrite E. cbn [bind]. apply hvector_ok; auto. rewrite u64_idem. apply u64_mul.
Qed.

(** indexed *)
Lemma indexed_bds bds ext m :
  indexed_map bds ext m = hindexed_map (map (fun bd => (fst bd, snd bd * ext)) bds) ext m.
Proof. unfold indexed_map, hindexed_map. rewrite !flat_map_concat_map, map_map. reflexivity. Qed.

Lemma bdisps_loop old ext : Type_extent c old = Ok (to_u64 ext) -> forall bds r,
  for_loop 0 (Z.of_nat (length bds)) (fun i acc =>
    do extent <- Type_extent c old;
    do d <- arr_get (map snd bds ++ r) i;
    Ok (acc ++ [to_u64 (to_u64 d * extent)])) []
  = Ok (map (fun bd : Z * Z => to_u64 (snd bd * ext)) bds).
Proof.
  intros E bds r. rewrite E. cbn [bind].
  rewrite (for_loop_foldM _ (fun (bd : Z * Z) acc => Ok (acc ++ [to_u64 (snd bd * ext)])) bds).
  - assert (G : forall l acc, foldM (fun (bd : Z * Z) acc => Ok (acc ++ [to_u64 (snd bd * ext)])) l acc
                 = Ok (acc ++ map (fun bd => to_u64 (snd bd * ext)) l)).
    { induction l as [|x l IH]; intros acc; cbn [foldM map bind]; [rewrite app_nil_r; reflexivity|].
      rewrite IH, <- app_assoc. reflexivity. }
    apply G.
  - intros k x s Hk.
    rewrite (arr_get_map_app snd bds r k x Hk). cbn [bind]. rewrite u64_mul. reflexivity.
Qed.

Lemma indexed_ok jk old ext bds r1 r2 : data_type c old ext -> Forall (fun bd => int_nonneg (fst bd)) bds ->
  Z.of_nat (length (indexed_map bds ext (typemap old))) <= INT_MAX ->
  map_fits c (indexed_map bds ext (typemap old)) ->
  exists t, Type_indexed c jk (Z.of_nat (length bds)) (map fst bds ++ r1) (map snd bds ++ r2) old = Ok t /\
    struct_result jk (indexed_map bds ext (typemap old)) t /\
    (no_override old -> plain_result jk (indexed_map bds ext (typemap old)) t).
Proof.
  intros D HF HL FIT. rewrite indexed_bds in *. unfold Type_indexed. rewrite vla_ok by lia. cbn [bind].
  assert (D' := D). destruct D' as (W & M & E). rewrite (bdisps_loop old ext E). cbn [bind].
  destruct (hindexed_ok jk old ext (map (fun bd => (fst bd, snd bd * ext)) bds) r1 [] D) as (t & ET & R); auto.
  - apply Forall_map. exact HF.
  - exists t. split; [|exact R]. rewrite <- ET. rewrite map_length, !map_map, app_nil_r. reflexivity.
Qed.

(** indexed_block *)
Lemma indexed_block_bds bl ds ext m :
  indexed_block_map bl ds ext m = indexed_map (map (fun d => (bl, d)) ds) ext m.
Proof. unfold indexed_block_map, indexed_map. rewrite !flat_map_concat_map, map_map. reflexivity. Qed.

Lemma indexed_block_ok jk old ext bl ds r2 : data_type c old ext -> int_nonneg bl ->
  Z.of_nat (length (indexed_block_map bl ds ext (typemap old))) <= INT_MAX ->
  map_fits c (indexed_block_map bl ds ext (typemap old)) ->
  exists t, Type_create_indexed_block c jk (Z.of_nat (length ds)) bl (ds ++ r2) old = Ok t /\
    struct_result jk (indexed_block_map bl ds ext (typemap old)) t /\
    (no_override old -> plain_result jk (indexed_block_map bl ds ext (typemap old)) t).
Proof.
  intros D Hb HL FIT. rewrite indexed_block_bds in *. unfold Type_create_indexed_block.
  rewrite vla_ok by lia. cbn [bind].
  destruct (indexed_ok jk old ext (map (fun d => (bl, d)) ds) [] r2 D) as (t & ET & R); auto.
  - apply Forall_map. apply Forall_forall. intros; exact Hb.
  - exists t. split; [|exact R]. rewrite <- ET. rewrite map_length, !map_map, map_id, app_nil_r. cbn [fst].
    f_equal. rewrite tabulate_upto. clear. unfold upto. rewrite Nat2Z.id, map_map. generalize 0%nat.
    induction ds as [|d ds IH]; intros k; [reflexivity|]. cbn [length List.seq map]. f_equal. apply IH.
Qed.
End Cons.
