(** Proofs about the handles.c model. *)
From Verif Require Import Base HandleModel HandleSpec.
From Coq Require Import Permutation.

(** *** The encoding *)
Lemma land255 x : Z.land x 255 = x mod 256.
Proof. change 255 with (Z.ones 8). rewrite Z.land_ones by lia. reflexivity. Qed.

Lemma shiftr8 x : Z.shiftr x 8 = x / 256.
Proof. rewrite Z.shiftr_div_pow2 by lia. reflexivity. Qed.

Lemma HANDLE_add b i : 0 <= i < 256 -> HANDLE b i = 256 * b + i.
Proof.
  intros H. unfold HANDLE. rewrite Z.shiftl_mul_pow2 by lia. change (2 ^ 8) with 256.
  assert (L : Z.land (b * 256) i = 0).
  { apply Z.bits_inj'. intros n Hn. rewrite Z.land_spec, Z.bits_0.
    destruct (Z_lt_le_dec n 8) as [Hlt|Hge].
    - change 256 with (2 ^ 8). rewrite Z.mul_pow2_bits_low by lia. reflexivity.
    - destruct (Z.eq_dec i 0) as [->|Hi]; [rewrite Z.bits_0; apply andb_false_r|].
      rewrite (Z.bits_above_log2 i n); [apply andb_false_r|lia|].
      assert (Z.log2 i < 8); [|lia]. apply Z.log2_lt_pow2; [lia|]. change (2 ^ 8) with 256. lia. }
  rewrite <- Z.lxor_lor, <- Z.add_nocarry_lxor by exact L. lia.
Qed.

Definition ptr_of (h : Z) : Z * Z := (h / 256, h mod 256).

Lemma ptr_of_handle h : (HANDLE_TO_BLOCK h, HANDLE_TO_INDEX h) = ptr_of h.
Proof. unfold HANDLE_TO_BLOCK, HANDLE_TO_INDEX, ptr_of. rewrite land255, shiftr8. reflexivity. Qed.

Lemma ptr_of_add b i : 0 <= i < 256 -> ptr_of (256 * b + i) = (b, i).
Proof.
  intros H. unfold ptr_of. f_equal.
  - symmetry. apply (Z.div_unique _ _ b i); lia.
  - symmetry. apply (Z.mod_unique _ _ b i); lia.
Qed.

Lemma ptr_of_inj h h' : ptr_of h = ptr_of h' -> h = h'.
Proof.
  unfold ptr_of. intros E. inversion E as [[E1 E2]].
  rewrite (Z.div_mod h 256), (Z.div_mod h' 256) by lia. rewrite E1, E2. reflexivity.
Qed.

Lemma ptr_of_val h : 256 * fst (ptr_of h) + snd (ptr_of h) = h.
Proof. unfold ptr_of. simpl fst. simpl snd. symmetry. apply Z.div_mod. lia. Qed.

Section HandleProofs.
Variable D : Type.

Definition itm (t : htab D) (h : Z) : hitem D := ht_item t (fst (ptr_of h)) (snd (ptr_of h)).

Lemma valid_ptr_of (t : htab D) h : valid_ptr t (ptr_of h) = true <-> 0 <= h < 256 * ht_nblocks t.
Proof.
  unfold valid_ptr, ptr_of, BLOCK_ITEMS.
  pose proof (Z.div_mod h 256 ltac:(lia)). pose proof (Z.mod_pos_bound h 256 ltac:(lia)).
  rewrite !andb_true_iff, !Z.leb_le, !Z.ltb_lt. split; intros; lia.
Qed.

Lemma item_upd_same (f : Z -> Z -> hitem D) b i v : item_upd f b i v b i = v.
Proof. unfold item_upd. rewrite !Z.eqb_refl. reflexivity. Qed.

Lemma item_upd_other (f : Z -> Z -> hitem D) b i v b' i' : (b', i') <> (b, i) -> item_upd f b i v b' i' = f b' i'.
Proof.
  unfold item_upd. intros H. destruct (Z.eqb_spec b' b); destruct (Z.eqb_spec i' i); simpl; auto.
  exfalso; apply H; congruence.
Qed.

Lemma item_upd_ptr (f : Z -> Z -> hitem D) h v h' :
  item_upd f (fst (ptr_of h)) (snd (ptr_of h)) v (fst (ptr_of h')) (snd (ptr_of h')) =
  if h' =? h then v else f (fst (ptr_of h')) (snd (ptr_of h')).
Proof.
  destruct (Z.eqb_spec h' h) as [->|Hne].
  - apply item_upd_same.
  - apply item_upd_other. intros E. apply Hne. apply ptr_of_inj.
    rewrite (surjective_pairing (ptr_of h')), (surjective_pairing (ptr_of h)). exact E.
Qed.

(** *** init_block *)
Lemma init_block_ok block (f : Z -> Z -> hitem D) :
  exists f', init_block block f = Ok f' /\
    (forall i, 0 <= i < 256 -> f' block i =
        mkHitem (HANDLE block i) (if i <? 255 then Some (block, i + 1) else None) (hi_data (f block i))) /\
    (forall b i, b <> block -> f' b i = f b i).
Proof.
  unfold init_block, BLOCK_ITEMS. change (256 - 1) with 255.
  destruct (for_loop_inv (fun j (g : Z -> Z -> hitem D) =>
      (forall i, 0 <= i < j -> g block i = mkHitem (HANDLE block i) (Some (block, i + 1)) (hi_data (f block i))) /\
      (forall i, j <= i -> g block i = f block i) /\
      (forall b i, b <> block -> g b i = f b i)) 0 255
      (fun i f => Ok (init_item f block i (Some (block, i + 1)))) f) as (g & E & G1 & G2 & G3).
  - lia.
  - repeat split; auto. intros; lia.
  - intros j g Hj (G1 & G2 & G3). eexists. split; [reflexivity|]. unfold init_item. repeat split.
    + intros i Hi. destruct (Z.eq_dec i j) as [->|Hne].
      * rewrite item_upd_same, G2 by lia. reflexivity.
      * rewrite item_upd_other by congruence. apply G1; lia.
    + intros i Hi. rewrite item_upd_other by (intros EE; inversion EE; lia). apply G2; lia.
    + intros b i Hb. rewrite item_upd_other by congruence. auto.
  - rewrite E. cbn [bind]. eexists. split; [reflexivity|]. unfold init_item. split.
    + intros i Hi. destruct (Z.eq_dec i 255) as [->|Hne].
      * rewrite item_upd_same, G2 by lia. reflexivity.
      * rewrite item_upd_other by congruence. destruct (Z.ltb_spec i 255); [|lia]. apply G1; lia.
    + intros b i Hb. rewrite item_upd_other by congruence. auto.
Qed.

(** *** Invariant *)
(** Free chain from pointer [p] through exactly the handles [fl]. *)
Fixpoint chain (t : htab D) (p : option (Z * Z)) (fl : list Z) : Prop :=
  match fl with
  | [] => p = None
  | h :: r => p = Some (ptr_of h) /\ chain t (hi_next (itm t h)) r
  end.

(** [HInv t live fl high]: [live] and [fl] partition the handles 1..256*nblocks-1. *)
Record HInv (t : htab D) (live fl : list Z) (high : Z) : Prop := {
  hv_init : ht_need_init t = false;
  hv_nb : 1 <= ht_nblocks t <= MAX_BLOCKS;
  hv_handle : forall h, 0 <= h < 256 * ht_nblocks t -> hi_handle (itm t h) = h;
  hv_chain : chain t (ht_nextfree t) fl;
  hv_nodup : NoDup (live ++ fl);
  hv_range : forall h, In h (live ++ fl) <-> 1 <= h < 256 * ht_nblocks t;
  hv_high : ht_nblocks t = high / 256 + 1;
  hv_le : Z.of_nat (length live) <= high
}.
Arguments hv_init {t live fl high} _.
Arguments hv_nb {t live fl high} _.
Arguments hv_handle {t live fl high} _ {h} _.
Arguments hv_chain {t live fl high} _.
Arguments hv_nodup {t live fl high} _.
Arguments hv_range {t live fl high} _ h.
Arguments hv_high {t live fl high} _.
Arguments hv_le {t live fl high} _.

Lemma range_count (l : list Z) n : NoDup l -> (forall h, In h l <-> 1 <= h < n) -> 1 <= n ->
  Z.of_nat (length l) = n - 1.
Proof.
  intros ND R Hn.
  set (l' := map Z.of_nat (List.seq 1 (Z.to_nat (n - 1)))).
  assert (P : Permutation l l').
  { apply NoDup_Permutation; auto.
    - unfold l'. apply FinFun.Injective_map_NoDup; [intros a b; lia|apply seq_NoDup].
    - intros x. rewrite R. unfold l'. rewrite in_map_iff. split.
      + intros H. exists (Z.to_nat x). split; [lia|]. apply in_seq. lia.
      + intros (k & <- & H). apply in_seq in H. lia. }
  rewrite (Permutation_length P). unfold l'. rewrite map_length, seq_length. lia.
Qed.

Lemma hinv_count t live fl high : HInv t live fl high ->
  Z.of_nat (length live) + Z.of_nat (length fl) = 256 * ht_nblocks t - 1.
Proof.
  intros I. rewrite <- Nat2Z.inj_add, <- app_length.
  apply range_count; [apply (hv_nodup I)|apply (hv_range I)|]. pose proof (hv_nb I). lia.
Qed.

Lemma chain_frame t t' : forall fl p,
  (forall h, In h fl -> hi_next (itm t' h) = hi_next (itm t h)) -> chain t p fl -> chain t' p fl.
Proof.
  induction fl as [|h r IH]; intros p H C; simpl in *; auto.
  destruct C as [E C]. split; auto. rewrite H by auto. apply IH; auto.
Qed.

(** Same table up to fields that matter for the chain. *)
Lemma chain_seq t b : forall n i, 0 <= i -> i + Z.of_nat n = 256 ->
  (forall j, i <= j < 256 -> hi_next (itm t (256 * b + j)) = if j <? 255 then Some (b, j + 1) else None) ->
  chain t (if i <? 256 then Some (b, i) else None) (map (fun k => 256 * b + Z.of_nat k) (List.seq (Z.to_nat i) n)).
Proof.
  induction n as [|n IH]; intros i Hi Hn H.
  - simpl. destruct (Z.ltb_spec i 256); [lia|reflexivity].
  - cbn [List.seq map chain]. destruct (Z.ltb_spec i 256); [|lia].
    rewrite Z2Nat.id by lia. split.
    + rewrite ptr_of_add by lia. reflexivity.
    + rewrite H by lia. replace (S (Z.to_nat i)) with (Z.to_nat (i + 1)) by lia.
      replace (if i <? 255 then Some (b, i + 1) else None) with (if i + 1 <? 256 then Some (b, i + 1) else None).
      * apply IH; try lia. intros j Hj. apply H; lia.
      * destruct (Z.ltb_spec (i + 1) 256); destruct (Z.ltb_spec i 255); try reflexivity; lia.
Qed.

Definition block_free (b : Z) (from : Z) : list Z :=
  map (fun k => 256 * b + Z.of_nat k) (List.seq (Z.to_nat from) (Z.to_nat (256 - from))).

Lemma block_free_in b from h : 0 <= from <= 256 ->
  In h (block_free b from) <-> 256 * b + from <= h < 256 * b + 256.
Proof.
  intros H. unfold block_free. rewrite in_map_iff. split.
  - intros (k & <- & Hk). apply in_seq in Hk. lia.
  - intros Hh. exists (Z.to_nat (h - 256 * b)). split; [lia|]. apply in_seq. lia.
Qed.

Lemma block_free_nodup b from : NoDup (block_free b from).
Proof.
  unfold block_free. apply FinFun.Injective_map_NoDup; [intros x y; lia|apply seq_NoDup].
Qed.

Lemma init_handles_ok t : exists t', init_handles t = Ok t' /\ HInv t' [] (block_free 0 1) 0 /\
  (forall h, 0 <= h < 256 -> hi_data (itm t' h) = hi_data (itm t h)) /\ ht_nblocks t' = 1.
Proof.
  unfold init_handles. destruct (init_block_ok 0 (ht_item t)) as (f' & E & F1 & F2).
  rewrite E. cbn [bind]. eexists. split; [reflexivity|].
  assert (F0 : f' 0 0 = mkHitem 0 (Some (0, 1)) (hi_data (ht_item t 0 0))).
  { rewrite F1 by lia. reflexivity. }
  assert (IT : forall nf j, 1 <= j < 256 -> itm (mkHtab (clear_next f' 0 0) 1 false nf) j = f' 0 j).
  { intros nf j Hj. unfold itm. change j with (256 * 0 + j) at 1 2. rewrite ptr_of_add by lia. cbn [fst snd ht_item].
    unfold clear_next. rewrite item_upd_other by (intros EE; inversion EE; lia). reflexivity. }
  split; [|split].
  - constructor; cbn [ht_need_init ht_nblocks ht_nextfree]; auto.
    + unfold MAX_BLOCKS; lia.
    + intros h Hh. destruct (Z.eq_dec h 0) as [->|Hne].
      * unfold itm, ptr_of. simpl fst; simpl snd. cbn [ht_item]. unfold clear_next.
        change (0 / 256) with 0. change (0 mod 256) with 0. rewrite item_upd_same, F0. reflexivity.
      * rewrite IT by lia. rewrite F1 by lia. cbn [hi_handle]. rewrite HANDLE_add by lia. lia.
    + rewrite F0. cbn [hi_next]. unfold block_free. change (Z.to_nat (256 - 1)) with 255%nat.
      apply (chain_seq _ 0 255 1); try lia.
      intros j Hj. replace (256 * 0 + j) with j by lia. rewrite IT by lia. rewrite F1 by lia. reflexivity.
    + apply block_free_nodup.
    + intros h. cbn [app]. rewrite block_free_in by lia. lia.
    + cbn [length]. lia.
  - intros h Hh. destruct (Z.eq_dec h 0) as [->|Hne].
    + unfold itm, ptr_of. simpl fst; simpl snd. cbn [ht_item]. unfold clear_next.
      change (0 / 256) with 0. change (0 mod 256) with 0. rewrite item_upd_same, F0. reflexivity.
    + rewrite IT by lia. rewrite F1 by lia. cbn [hi_data]. unfold itm.
      change h with (256 * 0 + h) at 2 3. rewrite ptr_of_add by lia. reflexivity.
  - reflexivity.
Qed.

(** *** alloc *)
Lemma h_get_ok t h : 0 <= h < 256 * ht_nblocks t -> h_get t (ptr_of h) = Ok (itm t h).
Proof. intros H. unfold h_get. apply valid_ptr_of in H. rewrite H. reflexivity. Qed.

Lemma alloc_ok_inited t live fl high : HInv t live fl high -> Z.of_nat (length live) < CAPACITY ->
  exists h fl' t', alloc_handle t = Ok (h, ptr_of h, t') /\ ~ In h live /\ 1 <= h <= CAPACITY /\
    HInv t' (h :: live) fl' (Z.max high (Z.of_nat (length live) + 1)) /\
    (forall k, In k live -> itm t' k = itm t k) /\
    (forall f r, fl = f :: r -> h = f /\ fl' = r /\ hi_data (itm t' f) = hi_data (itm t f)) /\
    ht_nblocks t <= ht_nblocks t' /\ 0 <= h < 256 * ht_nblocks t'.
Proof.
  intros I Hc. unfold alloc_handle. rewrite (hv_init I). cbn [bind].
  pose proof (hv_chain I) as CH. pose proof (hv_nb I) as NB. unfold MAX_BLOCKS in NB.
  pose proof (hinv_count _ _ _ _ I) as CNT. pose proof (hv_le I) as LE. pose proof (hv_high I) as HG.
  destruct fl as [|f r].
  - cbn [chain] in CH. rewrite CH. cbn [length] in CNT.
    destruct (Z.eqb_spec (ht_nblocks t) MAX_BLOCKS) as [E|NE].
    { unfold MAX_BLOCKS, CAPACITY in *. lia. }
    set (n := ht_nblocks t) in *.
    destruct (init_block_ok n (ht_item t)) as (f' & E & F1 & F2). rewrite E. cbn [bind].
    assert (F0 : f' n 0 = mkHitem (HANDLE n 0) (Some (n, 1)) (hi_data (ht_item t n 0))).
    { rewrite F1 by lia. reflexivity. }
    rewrite F0. cbn [hi_handle hi_next]. rewrite HANDLE_add by lia.
    replace (256 * n + 0) with (256 * n) by lia.
    exists (256 * n), (block_free n 1), (mkHtab (clear_next f' n 0) (n + 1) (ht_need_init t) (Some (n, 1))).
    assert (PN : ptr_of (256 * n) = (n, 0)).
    { replace (256 * n) with (256 * n + 0) by lia. apply ptr_of_add; lia. }
    assert (ITo : forall h, 0 <= h < 256 * n ->
      itm (mkHtab (clear_next f' n 0) (n + 1) (ht_need_init t) (Some (n, 1))) h = itm t h).
    { intros h Hh. unfold itm. cbn [ht_item]. unfold clear_next.
      assert (fst (ptr_of h) <> n).
      { pose proof (ptr_of_val h). unfold ptr_of in *. simpl fst in *; simpl snd in *.
        pose proof (Z.mod_pos_bound h 256 ltac:(lia)). lia. }
      rewrite item_upd_other by congruence. apply F2; auto. }
    assert (ITn : forall j, 1 <= j < 256 ->
      itm (mkHtab (clear_next f' n 0) (n + 1) (ht_need_init t) (Some (n, 1))) (256 * n + j) = f' n j).
    { intros j Hj. unfold itm. rewrite ptr_of_add by lia. cbn [fst snd ht_item].
      unfold clear_next. rewrite item_upd_other by (intros EE; inversion EE; lia). reflexivity. }
    assert (IT0 : hi_handle (itm (mkHtab (clear_next f' n 0) (n + 1) (ht_need_init t) (Some (n, 1))) (256 * n)) = 256 * n).
    { unfold itm. rewrite PN. cbn [fst snd ht_item]. unfold clear_next.
      rewrite item_upd_same, F0. cbn [hi_handle]. rewrite HANDLE_add by lia. lia. }
    split; [rewrite PN; reflexivity|].
    assert (NI : ~ In (256 * n) live).
    { intros H. assert (X : In (256 * n) (live ++ [])) by (rewrite app_nil_r; auto).
      apply (hv_range I) in X. fold n in X. lia. }
    split; [exact NI|]. split; [unfold CAPACITY in *; lia|]. split; [|split; [|split; [|split]]].
    + assert (HH : high = 256 * n - 1).
      { assert (high / 256 = n - 1) by lia. pose proof (Z.div_mod high 256 ltac:(lia)).
        pose proof (Z.mod_pos_bound high 256 ltac:(lia)). lia. }
      constructor; cbn [ht_need_init ht_nblocks ht_nextfree].
      * apply (hv_init I).
      * unfold MAX_BLOCKS in *. lia.
      * intros h Hh. destruct (Z_lt_le_dec h (256 * n)) as [Hlt|Hge].
        -- rewrite ITo by lia. apply (hv_handle I). fold n. lia.
        -- destruct (Z.eq_dec h (256 * n)) as [->|Hne]; [exact IT0|].
           replace h with (256 * n + (h - 256 * n)) by lia.
           rewrite ITn by lia. rewrite F1 by lia. cbn [hi_handle]. apply HANDLE_add; lia.
      * unfold block_free. change (Z.to_nat (256 - 1)) with 255%nat.
        apply (chain_seq _ n 255 1); try lia.
        intros j Hj. rewrite ITn by lia. rewrite F1 by lia. reflexivity.
      * cbn [app]. constructor.
        -- rewrite in_app_iff, block_free_in by lia. intros [H|H]; [auto|lia].
        -- pose proof (hv_nodup I) as ND. rewrite app_nil_r in ND.
           apply NoDup_app_intro; [exact ND|apply block_free_nodup|].
           intros h Hh. rewrite block_free_in by lia.
           assert (X : In h (live ++ [])) by (rewrite app_nil_r; auto).
           apply (hv_range I) in X. fold n in X. lia.
      * intros h. cbn [app In]. rewrite in_app_iff, block_free_in by lia.
        pose proof (hv_range I h) as R. rewrite app_nil_r in R. fold n in R. rewrite R. lia.
      * replace (Z.max high (Z.of_nat (length live) + 1)) with (256 * n) by lia.
        rewrite Z.mul_comm, Z.div_mul by lia. lia.
      * cbn [length]. lia.
    + intros k Hk. apply ITo.
      assert (X : In k (live ++ [])) by (rewrite app_nil_r; auto).
      apply (hv_range I) in X. fold n in X. lia.
    + intros f r EE. discriminate.
    + cbn [ht_nblocks]. lia.
    + cbn [ht_nblocks]. lia.
  - destruct CH as [EF CH]. rewrite EF.
    assert (FR : 1 <= f < 256 * ht_nblocks t).
    { apply (hv_range I). apply in_or_app. simpl; auto. }
    rewrite h_get_ok by lia. cbn [bind]. unfold h_put.
    assert (V : valid_ptr (set_nextfree t (hi_next (itm t f))) (ptr_of f) = true).
    { apply (valid_ptr_of (set_nextfree t _)). cbn [set_nextfree ht_nblocks]. lia. }
    rewrite V. cbn [bind]. rewrite (hv_handle I) by lia.
    cbn [set_nextfree ht_item ht_nblocks ht_need_init ht_nextfree].
    match goal with |- context [Ok (f, ptr_of f, ?tt)] => set (t' := tt) end.
    assert (IT : forall k, itm t' k = if k =? f then mkHitem f None (hi_data (itm t f)) else itm t k).
    { intros k. unfold itm, t'. cbn [ht_item]. apply item_upd_ptr. }
    pose proof (hv_nodup I) as ND.
    assert (NDf : ~ In f (live ++ r) /\ NoDup (live ++ r)).
    { apply NoDup_remove in ND. tauto. }
    destruct NDf as [Nf NDr]. rewrite in_app_iff in Nf.
    exists f, r, t'. split; [reflexivity|]. split; [tauto|]. split; [unfold CAPACITY; lia|].
    split; [|split; [|split; [|split]]].
    + constructor; cbn [ht_need_init ht_nblocks ht_nextfree t'].
      * apply (hv_init I).
      * apply (hv_nb I).
      * intros h Hh. rewrite IT. destruct (Z.eqb_spec h f) as [->|]; auto. apply (hv_handle I); auto.
      * apply chain_frame with (t := t); auto. intros h Hh. rewrite IT.
        destruct (Z.eqb_spec h f) as [->|]; auto. tauto.
      * cbn [app]. constructor; [rewrite in_app_iff; tauto|exact NDr].
      * intros h. rewrite <- (hv_range I h). cbn [app In]. rewrite !in_app_iff. simpl. intuition.
      * cbn [length] in CNT.
        set (m := Z.max high (Z.of_nat (length live) + 1)).
        assert (256 * (ht_nblocks t - 1) <= m < 256 * ht_nblocks t).
        { pose proof (Z.div_mod high 256 ltac:(lia)). pose proof (Z.mod_pos_bound high 256 ltac:(lia)). lia. }
        pose proof (Z.div_mod m 256 ltac:(lia)). pose proof (Z.mod_pos_bound m 256 ltac:(lia)). lia.
      * cbn [length]. lia.
    + intros k Hk. rewrite IT. destruct (Z.eqb_spec k f) as [->|]; auto. tauto.
    + intros f0 r0 EE. inversion EE; subst. repeat split; auto.
      rewrite IT, Z.eqb_refl. reflexivity.
    + cbn [t' ht_nblocks]. lia.
    + cbn [t' ht_nblocks]. lia.
Qed.

(** Allocation at capacity aborts. *)
Lemma alloc_full t live fl high : HInv t live fl high -> Z.of_nat (length live) = CAPACITY ->
  exists m, alloc_handle t = Abort m.
Proof.
  intros I Hc. unfold alloc_handle. rewrite (hv_init I). cbn [bind].
  pose proof (hv_nb I) as NB. pose proof (hinv_count _ _ _ _ I) as CNT.
  unfold MAX_BLOCKS, CAPACITY in *.
  destruct fl as [|f r]; [|cbn [length] in CNT; lia].
  pose proof (hv_chain I) as CH. cbn [chain] in CH. rewrite CH.
  destruct (Z.eqb_spec (ht_nblocks t) 1024) as [E|NE]; [eauto|].
  cbn [length] in CNT. lia.
Qed.

Lemma live_le_cap t live fl high : HInv t live fl high -> Z.of_nat (length live) <= CAPACITY.
Proof.
  intros I. pose proof (hv_nb I). pose proof (hinv_count _ _ _ _ I). unfold MAX_BLOCKS, CAPACITY in *. lia.
Qed.

(** *** free *)
Lemma free_ok t live fl high h : HInv t live fl high -> In h live ->
  exists t', free_handle h t = Ok t' /\ HInv t' (remove_id h live) (h :: fl) high /\
    (forall k, hi_data (itm t' k) = hi_data (itm t k)) /\
    (forall k, k <> h -> itm t' k = itm t k) /\ ht_nblocks t' = ht_nblocks t.
Proof.
  intros I Hl. pose proof (hv_nodup I) as ND.
  assert (R : 1 <= h < 256 * ht_nblocks t) by (apply (hv_range I); apply in_or_app; auto).
  unfold free_handle. destruct (Z.eqb_spec h 0); [lia|]. rewrite (hv_init I), ptr_of_handle.
  rewrite h_get_ok by lia. cbn [bind]. unfold h_put.
  assert (V : valid_ptr t (ptr_of h) = true) by (apply valid_ptr_of; lia).
  rewrite V. cbn [bind]. eexists. split; [reflexivity|].
  match goal with |- HInv ?tt _ _ _ /\ _ => set (t' := tt) end.
  assert (IT : forall k, itm t' k = if k =? h then mkHitem (hi_handle (itm t h)) (ht_nextfree t) (hi_data (itm t h)) else itm t k).
  { intros k. unfold itm, t'. cbn [ht_item set_nextfree]. apply item_upd_ptr. }
  assert (NDl : NoDup live /\ NoDup fl /\ forall x, In x live -> ~ In x fl).
  { clear - ND. induction live as [|x l IH]; simpl in *; [repeat split; auto; constructor|].
    inversion ND; subst. destruct (IH H2) as (A & B & C). rewrite in_app_iff in H1. repeat split; auto.
    - constructor; tauto.
    - intros y [<-|Hy]; [tauto|auto]. }
  destruct NDl as (NL & NF & DJ).
  split; [|split; [|split]].
  - constructor; cbn [t' set_nextfree ht_need_init ht_nblocks ht_nextfree].
    + apply (hv_init I).
    + apply (hv_nb I).
    + intros k Hk. rewrite IT. destruct (Z.eqb_spec k h) as [->|]; cbn [hi_handle]; apply (hv_handle I); lia.
    + cbn [chain]. split; auto. rewrite IT, Z.eqb_refl. cbn [hi_next].
      apply chain_frame with (t := t); [|apply (hv_chain I)].
      intros k Hk. rewrite IT. destruct (Z.eqb_spec k h) as [->|]; auto. exfalso. apply (DJ h); auto.
    + apply NoDup_app_intro.
      * apply NoDup_filter; auto.
      * constructor; auto.
      * intros x Hx. apply in_remove_id in Hx. simpl. intros [E|Hf]; [destruct Hx; congruence|].
        apply (DJ x); tauto.
    + intros k. rewrite <- (hv_range I k). rewrite !in_app_iff, in_remove_id. simpl.
      destruct (Z.eq_dec k h) as [->|]; intuition congruence.
    + apply (hv_high I).
    + pose proof (hv_le I). pose proof (remove_id_length NL Hl). lia.
  - intros k. rewrite IT. destruct (Z.eqb_spec k h) as [->|]; auto.
  - intros k Hk. rewrite IT. destruct (Z.eqb_spec k h) as [->|]; congruence.
  - reflexivity.
Qed.

Lemma handle_to_ptr_live t live fl high h : HInv t live fl high -> In h live ->
  handle_to_ptr h t = Ok (Some (ptr_of h), t).
Proof.
  intros I Hl.
  assert (R : 1 <= h < 256 * ht_nblocks t) by (apply (hv_range I); apply in_or_app; auto).
  unfold handle_to_ptr. rewrite (hv_init I). cbn [bind]. destruct (Z.eqb_spec h 0); [lia|].
  rewrite ptr_of_handle, h_get_ok by lia. reflexivity.
Qed.

Lemma h_read_live t live fl high h : HInv t live fl high -> In h live ->
  h_read t (ptr_of h) = Ok (hi_data (itm t h)).
Proof.
  intros I Hl.
  assert (R : 1 <= h < 256 * ht_nblocks t) by (apply (hv_range I); apply in_or_app; auto).
  unfold h_read. rewrite h_get_ok by lia. reflexivity.
Qed.

Lemma h_write_live t live fl high h d : HInv t live fl high -> In h live ->
  exists t', h_write t (ptr_of h) d = Ok t' /\ HInv t' live fl high /\
    hi_data (itm t' h) = d /\ (forall k, k <> h -> itm t' k = itm t k) /\
    ht_nextfree t' = ht_nextfree t /\ ht_nblocks t' = ht_nblocks t.
Proof.
  intros I Hl.
  assert (R : 1 <= h < 256 * ht_nblocks t) by (apply (hv_range I); apply in_or_app; auto).
  unfold h_write. rewrite h_get_ok by lia. cbn [bind]. unfold h_put.
  assert (V : valid_ptr t (ptr_of h) = true) by (apply valid_ptr_of; lia).
  rewrite V. eexists. split; [reflexivity|].
  match goal with |- HInv ?tt _ _ _ /\ _ => set (t' := tt) end.
  assert (IT : forall k, itm t' k = if k =? h then mkHitem (hi_handle (itm t h)) (hi_next (itm t h)) d else itm t k).
  { intros k. unfold itm, t'. cbn [ht_item]. apply item_upd_ptr. }
  split; [|split; [|split; [|split]]]; auto.
  - constructor; cbn [t' ht_need_init ht_nblocks ht_nextfree]; try solve [destruct I; assumption].
    + intros k Hk. rewrite IT. destruct (Z.eqb_spec k h) as [->|]; cbn [hi_handle]; apply (hv_handle I); auto.
    + apply chain_frame with (t := t); [|apply (hv_chain I)].
      intros k Hk. rewrite IT. destruct (Z.eqb_spec k h) as [->|]; auto.
  - rewrite IT, Z.eqb_refl. reflexivity.
  - intros k Hk. rewrite IT. destruct (Z.eqb_spec k h); congruence.
Qed.

(** *** The table, initialised or not *)
Definition HOk (t : htab D) (live : list Z) (high : Z) : Prop :=
  (ht_need_init t = true /\ live = [] /\ high = 0) \/ exists fl, HInv t live fl high.

Lemma hok_init junk : HOk (htab_init junk) [] 0.
Proof. left. auto. Qed.

Lemma alloc_spec t live high : HOk t live high -> Z.of_nat (length live) < CAPACITY ->
  exists h t', alloc_handle t = Ok (h, ptr_of h, t') /\ ~ In h live /\ 1 <= h <= CAPACITY /\
    HOk t' (h :: live) (Z.max high (Z.of_nat (length live) + 1)) /\
    (forall k, In k live -> itm t' k = itm t k).
Proof.
  intros [(Hi & -> & ->)|(fl & I)] Hc.
  - destruct (init_handles_ok t) as (t1 & E1 & I1 & D1 & N1).
    destruct (alloc_ok_inited t1 [] _ 0 I1 Hc) as (h & fl' & t' & E & NI & R & I' & FR & _ & _).
    exists h, t'. split.
    + unfold alloc_handle in *. rewrite Hi, E1. cbn [bind]. rewrite (hv_init I1) in E. exact E.
    + split; [auto|]. split; [lia|]. split; [right; eauto|intros k []].
  - destruct (alloc_ok_inited t live fl high I Hc) as (h & fl' & t' & E & NI & R & I' & FR & _ & _).
    exists h, t'. repeat split; auto; try lia. right. eauto.
Qed.

Lemma alloc_abort t live high : HOk t live high -> Z.of_nat (length live) = CAPACITY ->
  exists m, alloc_handle t = Abort m.
Proof.
  intros [(_ & -> & _)|(fl & I)] Hc.
  - unfold CAPACITY in Hc. simpl in Hc. lia.
  - eapply alloc_full; eauto.
Qed.

Lemma hok_cap t live high : HOk t live high -> Z.of_nat (length live) <= CAPACITY.
Proof.
  intros [(_ & -> & _)|(fl & I)]; [unfold CAPACITY; simpl; lia|eapply live_le_cap; eauto].
Qed.

Lemma hok_nodup t live high : HOk t live high -> NoDup live.
Proof.
  intros [(_ & -> & _)|(fl & I)]; [constructor|].
  pose proof (hv_nodup I) as ND. clear - ND. induction live as [|x l IH]; simpl in *; [constructor|].
  inversion ND; subst. constructor; auto. rewrite in_app_iff in H1. tauto.
Qed.

Lemma hok_range t live high h : HOk t live high -> In h live -> 1 <= h <= CAPACITY.
Proof.
  intros [(_ & -> & _)|(fl & I)] H; [destruct H|].
  pose proof (hv_nb I). unfold MAX_BLOCKS, CAPACITY in *.
  assert (1 <= h < 256 * ht_nblocks t); [|lia]. apply (hv_range I). apply in_or_app; auto.
Qed.

Lemma to_ptr_spec t live high h : HOk t live high -> In h live ->
  handle_to_ptr h t = Ok (Some (ptr_of h), t).
Proof.
  intros [(_ & -> & _)|(fl & I)] H; [destruct H|]. eapply handle_to_ptr_live; eauto.
Qed.

Lemma to_ptr_null t live high : HOk t live high ->
  exists t', handle_to_ptr 0 t = Ok (None, t') /\ HOk t' live high /\
   (forall k, In k live -> itm t' k = itm t k) /\ (live <> [] -> t' = t).
Proof.
  intros [(Hi & -> & ->)|(fl & I)].
  - destruct (init_handles_ok t) as (t1 & E1 & I1 & D1 & N1).
    exists t1. unfold handle_to_ptr. rewrite Hi, E1. cbn [bind Z.eqb].
    split; [reflexivity|]. split; [right; eauto|]. split; [intros k []|congruence].
  - exists t. unfold handle_to_ptr. rewrite (hv_init I). cbn [bind Z.eqb].
    split; [reflexivity|]. split; [right; eauto|]. auto.
Qed.

Lemma read_spec t live high h : HOk t live high -> In h live -> h_read t (ptr_of h) = Ok (hi_data (itm t h)).
Proof. intros [(_ & -> & _)|(fl & I)] H; [destruct H|]. eapply h_read_live; eauto. Qed.

Lemma write_spec t live high h d : HOk t live high -> In h live ->
  exists t', h_write t (ptr_of h) d = Ok t' /\ HOk t' live high /\
    hi_data (itm t' h) = d /\ (forall k, k <> h -> itm t' k = itm t k).
Proof.
  intros [(_ & -> & _)|(fl & I)] H; [destruct H|].
  destruct (h_write_live t live fl high h d I H) as (t' & E & I' & A & B & _).
  exists t'. repeat split; auto. right; eauto.
Qed.

Lemma free_spec t live high h : HOk t live high -> In h live ->
  exists t', free_handle h t = Ok t' /\ HOk t' (remove_id h live) high /\
    (forall k, k <> h -> itm t' k = itm t k).
Proof.
  intros [(_ & -> & _)|(fl & I)] H; [destruct H|].
  destruct (free_ok t live fl high h I H) as (t' & E & I' & A & B & _).
  exists t'. repeat split; auto. right; eauto.
Qed.

Lemma free_null (t : htab D) : free_handle 0 t = Ok t.
Proof. reflexivity. Qed.

Lemma destroy_spec t live high : HOk t live high -> HOk (destroy_handles t) [] 0.
Proof.
  intros _. left. unfold destroy_handles. destruct (ht_need_init t) eqn:E; auto.
Qed.

(** First allocation of an empty initialised or uninitialised table... *)
Lemma alloc_first (t : htab D) : ht_need_init t = true -> exists t', alloc_handle t = Ok (1, ptr_of 1, t').
Proof.
  intros Hi. destruct (init_handles_ok t) as (t1 & E1 & I1 & D1 & N1).
  destruct (alloc_ok_inited t1 [] _ 0 I1) as (h & fl' & t' & E & NI & R & I' & FR & FL & _).
  { unfold CAPACITY; simpl; lia. }
  destruct (FL 1 (block_free 0 2)) as (-> & _); [reflexivity|].
  exists t'. unfold alloc_handle in *. rewrite Hi, E1. cbn [bind]. rewrite (hv_init I1) in E. exact E.
Qed.

(** Freed handle is the next one handed out. *)
Lemma lifo t live high h : HOk t live high -> In h live ->
  exists t1 t2, free_handle h t = Ok t1 /\ alloc_handle t1 = Ok (h, ptr_of h, t2).
Proof.
  intros [(_ & -> & _)|(fl & I)] H; [destruct H|].
  destruct (free_ok t live fl high h I H) as (t1 & E & I1 & _).
  assert (NL : NoDup live) by (eapply hok_nodup; right; eauto).
  pose proof (remove_id_length NL H) as RL. pose proof (live_le_cap _ _ _ _ I).
  destruct (alloc_ok_inited t1 _ _ _ I1) as (h' & fl' & t2 & E2 & _ & _ & _ & _ & FL & _); [lia|].
  destruct (FL h fl eq_refl) as (-> & _). exists t1, t2. auto.
Qed.

Lemma blocks_high t live high : HOk t live high ->
  ht_need_init t = true \/ ht_nblocks t = high / 256 + 1.
Proof. intros [(Hi & _)|(fl & I)]; [auto|]. right. apply (hv_high I). Qed.

(** *** Refinement of the specification *)
Definition HAbs (t : htab D) (a : hstate D) : Prop :=
  HOk t (map fst (hs_live D a)) (hs_high D a) /\
  (forall h d, hlook D h (hs_live D a) = Some d -> hi_data (itm t h) = d).

Lemma hlook_in l h d : hlook D h l = Some d -> In h (map fst l).
Proof.
  induction l as [|[k e] r IH]; simpl; [discriminate|]. destruct (Z.eqb_spec k h); auto.
Qed.
Lemma hlook_none l h : hlook D h l = None <-> ~ In h (map fst l).
Proof.
  induction l as [|[k e] r IH]; simpl; [tauto|]. destruct (Z.eqb_spec k h) as [->|].
  - split; [discriminate|]. intros H; exfalso; auto.
  - rewrite IH. intuition.
Qed.
Lemma hdrop_fst l h : map fst (hdrop D h l) = remove_id h (map fst l).
Proof.
  unfold hdrop, remove_id. induction l as [|[k e] r IH]; simpl; auto.
  destruct (k =? h); simpl; rewrite IH; reflexivity.
Qed.
Lemma hlook_drop l h k : k <> h -> hlook D k (hdrop D h l) = hlook D k l.
Proof.
  intros H. induction l as [|[j e] r IH]; simpl; auto.
  destruct (Z.eqb_spec j h) as [->|]; simpl.
  - rewrite IH. destruct (Z.eqb_spec h k); [congruence|reflexivity].
  - destruct (j =? k); auto.
Qed.
Lemma hset_fst l h d : map fst (hset D h d l) = map fst l.
Proof.
  unfold hset. rewrite map_map. apply map_ext_in. intros [k e] _. simpl. destruct (Z.eqb_spec k h); simpl; auto.
Qed.
Lemma hlook_set l h d k : hlook D k (hset D h d l) =
  if k =? h then (match hlook D h l with Some _ => Some d | None => None end) else hlook D k l.
Proof.
  induction l as [|[j e] r IH]; simpl.
  - destruct (k =? h); reflexivity.
  - destruct (Z.eqb_spec j h) as [->|Hjl]; simpl.
    + destruct (Z.eqb_spec h k) as [->|Hlk].
      * rewrite Z.eqb_refl. reflexivity.
      * rewrite IH. destruct (Z.eqb_spec k h); [congruence|reflexivity].
    + destruct (Z.eqb_spec j k) as [->|Hjk].
      * destruct (Z.eqb_spec k h); [congruence|reflexivity].
      * exact IH.
Qed.

Lemma hstep_refines t a op : HAbs t a -> hlegal D a op ->
  (exists out t' a', hexec op t = Ok (out, t') /\ hstep D a op out a' /\ HAbs t' a') \/
  (op = HAlloc D /\ nlive D a = CAPACITY /\ exists m, hexec op t = Abort m).
Proof.
  intros [HK DT] Lg. destruct op as [|h|h|h d|]; cbn [hlegal] in Lg.
  - assert (LC := hok_cap _ _ _ HK). rewrite map_length in LC.
    destruct (Z.eq_dec (nlive D a) CAPACITY) as [E|NE].
    + right. repeat split; auto. destruct (alloc_abort _ _ _ HK) as (m & EM).
      { rewrite map_length. exact E. }
      exists m. cbn [hexec]. rewrite EM. reflexivity.
    + left. destruct (alloc_spec _ _ _ HK) as (h & t' & E & NI & R & HK' & FR).
      { rewrite map_length. unfold nlive in NE. lia. }
      rewrite map_length in HK'. fold (nlive D a) in HK'.
      eexists _, t', _. cbn [hexec]. rewrite E. split; [reflexivity|]. split.
      * apply hs_alloc with (d := hi_data (itm t' h)); auto.
        -- unfold nlive in *. lia.
        -- apply hlook_none; auto.
      * split; [exact HK'|]. cbn [hs_live hlook]. intros k d.
        destruct (Z.eqb_spec h k) as [->|Hne]; [congruence|].
        intros L. rewrite FR; auto. eapply hlook_in; eauto.
  - left. destruct (hlook D h (hs_live D a)) as [d|] eqn:L; [|congruence].
    assert (Hl := hlook_in _ _ _ L).
    destruct (free_spec _ _ _ h HK Hl) as (t' & E & HK' & FR).
    eexists _, t', _. cbn [hexec]. rewrite E. split; [reflexivity|]. split; [eapply hs_free; eauto|].
    split; [cbn [hs_live hs_high]; rewrite hdrop_fst; exact HK'|].
    cbn [hs_live]. intros k e Lk.
    assert (k <> h). { apply hlook_in in Lk. rewrite hdrop_fst in Lk. apply in_remove_id in Lk. tauto. }
    rewrite hlook_drop in Lk by auto. rewrite FR by auto. auto.
  - left. destruct (hlook D h (hs_live D a)) as [d|] eqn:L; [|congruence].
    assert (Hl := hlook_in _ _ _ L).
    exists (HData d), t, a. cbn [hexec]. rewrite (to_ptr_spec _ _ _ _ HK Hl). cbn [bind].
    rewrite (read_spec _ _ _ _ HK Hl). cbn [bind]. rewrite (DT _ _ L).
    split; [reflexivity|]. split; [apply hs_load; auto|split; auto].
  - left. destruct (hlook D h (hs_live D a)) as [d0|] eqn:L; [|congruence].
    assert (Hl := hlook_in _ _ _ L).
    destruct (write_spec _ _ _ h d HK Hl) as (t' & E & HK' & A & B).
    eexists _, t', _. cbn [hexec]. rewrite (to_ptr_spec _ _ _ _ HK Hl). cbn [bind].
    rewrite E. cbn [bind]. split; [reflexivity|]. split; [eapply hs_store; eauto|].
    split; [cbn [hs_live hs_high]; rewrite hset_fst; exact HK'|].
    cbn [hs_live]. intros k e Lk. rewrite hlook_set, L in Lk.
    destruct (Z.eqb_spec k h) as [->|]; [congruence|]. rewrite B by auto. auto.
  - left. eexists _, _, _. cbn [hexec]. split; [reflexivity|]. split; [apply hs_destroy|].
    split; [eapply destroy_spec; eauto|]. cbn [hs_live hlook]. discriminate.
Qed.

Lemma hafter_all ops : forall t a (P : htab D -> hstate D -> Prop),
  HAbs t a -> (forall t a, HAbs t a -> P t a) -> hafter D ops t a P.
Proof.
  induction ops as [|op r IH]; intros t a P A HP; simpl; auto.
  intros Lg. destruct (hstep_refines t a op A Lg) as [(out & t' & a' & E & S & A')|H]; [left|right; exact H].
  exists out, t', a'. auto.
Qed.

Lemma habs_init junk : HAbs (htab_init junk) (mkHstate D [] 0).
Proof. split; [apply hok_init|]. simpl. discriminate. Qed.

Lemma hafter_init junk ops (P : htab D -> hstate D -> Prop) :
  (forall t a, HAbs t a -> P t a) -> hafter D ops (htab_init junk) (mkHstate D [] 0) P.
Proof. intros H. apply hafter_all; auto. apply habs_init. Qed.

Lemma habs_fresh t a : HAbs t a -> forall h t', hexec (HAlloc D) t = Ok (HHandle D h, t') ->
  1 <= h <= CAPACITY /\ hlook D h (hs_live D a) = None.
Proof.
  intros A h t' E. destruct (hstep_refines t a (HAlloc D) A I) as [(o & t1 & a1 & E1 & S & _)|(_ & _ & m & E1)].
  - rewrite E in E1. inversion E1; subst. inversion S; subst. auto.
  - congruence.
Qed.

Lemma habs_stable t a : HAbs t a -> forall h d, hlook D h (hs_live D a) = Some d ->
  hexec (HLoad D h) t = Ok (HData d, t) /\
  (forall op out t' a', hexec op t = Ok (out, t') -> hstep D a op out a' ->
     op <> HFree D h -> (forall e, op <> HStore h e) -> op <> HDestroy D ->
     hlook D h (hs_live D a') = Some d).
Proof.
  intros A h d L. split.
  - destruct A as [HK DT]. assert (Hl := hlook_in _ _ _ L). cbn [hexec].
    rewrite (to_ptr_spec _ _ _ _ HK Hl). cbn [bind].
    rewrite (read_spec _ _ _ _ HK Hl). cbn [bind]. rewrite (DT _ _ L). reflexivity.
  - intros op out t' a' _ S N1 N2 N3. inversion S; subst; cbn [hs_live hlook]; auto.
    + destruct (Z.eqb_spec h0 h); [congruence|auto].
    + rewrite hlook_drop; [auto|]. intros ->. congruence.
    + rewrite hlook_set. destruct (Z.eqb_spec h h0) as [->|]; auto. exfalso. eapply N2; eauto.
    + congruence.
Qed.

Lemma habs_capacity t a : HAbs t a -> nlive D a <= CAPACITY /\ NoDup (map fst (hs_live D a)) /\
  (nlive D a < CAPACITY <-> exists h t', hexec (HAlloc D) t = Ok (HHandle D h, t')) /\
  (nlive D a = CAPACITY <-> exists m, hexec (HAlloc D) t = Abort m).
Proof.
  intros A. pose proof (hok_cap _ _ _ (proj1 A)) as LC. rewrite map_length in LC. fold (nlive D a) in LC.
  split; [exact LC|]. split; [eapply hok_nodup; apply (proj1 A)|].
  destruct (hstep_refines t a (HAlloc D) A I) as [(o & t1 & a1 & E1 & S & _)|(_ & N & m & E1)].
  - inversion S; subst. split; split; intros; eauto; try lia; match goal with X : exists _, _ |- _ => destruct X as (? & ?); congruence end.
  - split; split; intros; eauto; try lia; match goal with X : exists _, _ |- _ => destruct X as (? & ? & ?); congruence end.
Qed.

Lemma habs_lifo_high t a : HAbs t a ->
  (forall h d, hlook D h (hs_live D a) = Some d ->
     exists t1 t2, hexec (HFree D h) t = Ok (HUnit D, t1) /\ hexec (HAlloc D) t1 = Ok (HHandle D h, t2)) /\
  (ht_need_init t = true \/
   (256 * ht_nblocks t >= hs_high D a + 1 /\ 256 * (ht_nblocks t - 1) < hs_high D a + 1)).
Proof.
  intros [HK DT]. split.
  - intros h d L. apply hlook_in in L. destruct (lifo _ _ _ h HK L) as (t1 & t2 & E1 & E2).
    exists t1, t2. cbn [hexec]. rewrite E1, E2. auto.
  - destruct (blocks_high _ _ _ HK) as [H|H]; [auto|right].
    pose proof (Z.div_mod (hs_high D a) 256 ltac:(lia)). pose proof (Z.mod_pos_bound (hs_high D a) 256 ltac:(lia)). lia.
Qed.

End HandleProofs.
