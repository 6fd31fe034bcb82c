(** The handle table hands out handles in an exact order: the most recently freed handle first, otherwise the smallest
    one never used since the table was (re)initialised. *)
From Verif Require Import Base HandleModel HandleSpec HandleProofs.

(** Allocation order, as a specification: [freed] is the stack of freed handles, [top] the largest handle used so far. *)
Definition next_handle (freed : list Z) (top : Z) : option (Z * list Z * Z) :=
  match freed with
  | h :: r => Some (h, r, top)
  | [] => if top =? CAPACITY then None else Some (top + 1, [], top + 1)
  end.

Definition zr (a : Z) (n : Z) : list Z := map (fun k => a + Z.of_nat k) (List.seq 0 (Z.to_nat n)).

Lemma zr_cons a n : 0 < n -> zr a n = a :: zr (a + 1) (n - 1).
Proof.
  intros H. unfold zr. replace (Z.to_nat n) with (S (Z.to_nat (n - 1))) by lia.
  cbn [List.seq map]. f_equal; [lia|]. rewrite <- seq_shift, map_map. apply map_ext. intros; lia.
Qed.
Lemma zr_nil a n : n <= 0 -> zr a n = [].
Proof. intros H. unfold zr. replace (Z.to_nat n) with 0%nat by lia. reflexivity. Qed.
Lemma zr_in a n h : In h (zr a n) <-> a <= h < a + n.
Proof.
  unfold zr. rewrite in_map_iff. split.
  - intros (k & <- & Hk). apply in_seq in Hk. lia.
  - intros H. exists (Z.to_nat (h - a)). split; [lia|]. apply in_seq. lia.
Qed.
Lemma block_free_zr b : block_free b 1 = zr (256 * b + 1) 255.
Proof.
  unfold block_free, zr. change (Z.to_nat (256 - 1)) with 255%nat. change (Z.to_nat 255) with 255%nat.
  change (Z.to_nat 1) with 1%nat. rewrite <- seq_shift, map_map. apply map_ext. intros; lia.
Qed.

Arguments hv_init {D t live fl high} _.
Arguments hv_nb {D t live fl high} _.
Arguments hv_chain {D t live fl high} _.
Arguments hv_nodup {D t live fl high} _.

Section HandleExact.
Variable D : Type.
Implicit Types t : htab D.

Lemma chain_det t : forall fl fl' p, chain D t p fl -> chain D t p fl' -> fl = fl'.
Proof.
  induction fl as [|h r IH]; intros [|h' r'] p; simpl; auto.
  - intros -> [E _]. discriminate.
  - intros [-> _] E. discriminate.
  - intros [-> C] [E C']. inversion E. assert (h = h') by (apply ptr_of_inj; unfold ptr_of; congruence). subst.
    f_equal. eapply IH; eauto.
Qed.

(** When the free list is empty a whole block is added. *)
Lemma alloc_grow t live high : HInv D t live [] high -> Z.of_nat (length live) < CAPACITY ->
  exists t', alloc_handle t = Ok (256 * ht_nblocks t, ptr_of (256 * ht_nblocks t), t') /\
    HInv D t' (256 * ht_nblocks t :: live) (zr (256 * ht_nblocks t + 1) 255) (Z.max high (Z.of_nat (length live) + 1)) /\
    (forall k, In k live -> itm D t' k = itm D t k) /\ ht_nblocks t' = ht_nblocks t + 1.
Proof.
  intros I Hc.
  destruct (alloc_ok_inited D t live [] high I Hc) as (h & fl' & t' & E & _ & _ & I' & K & _).
  pose proof (hv_nb I) as NB. pose proof (hinv_count _ _ _ _ _ I) as CNT. cbn [length] in CNT.
  pose proof (hv_chain I) as CH. cbn [chain] in CH.
  pose proof E as E0. unfold alloc_handle in E. rewrite (hv_init I) in E. cbn [bind] in E. rewrite CH in E.
  destruct (Z.eqb_spec (ht_nblocks t) MAX_BLOCKS) as [X|NE]; [discriminate|].
  set (n := ht_nblocks t) in *.
  destruct (init_block_ok D n (ht_item t)) as (f' & EB & F1 & F2). rewrite EB in E. cbn [bind] in E.
  assert (F0 : f' n 0 = mkHitem (HANDLE n 0) (Some (n, 1)) (hi_data (ht_item t n 0))).
  { rewrite F1 by lia. reflexivity. }
  rewrite F0 in E. cbn [hi_handle hi_next] in E. rewrite HANDLE_add in E by lia.
  replace (256 * n + 0) with (256 * n) in E by lia.
  assert (Eh : 256 * n = h) by congruence.
  assert (Et : mkHtab (clear_next f' n 0) (n + 1) (ht_need_init t) (Some (n, 1)) = t') by congruence.
  clear E. subst h. exists t'. split; [exact E0|]. split; [|split; [exact K|rewrite <- Et; reflexivity]].
  assert (FL : fl' = zr (256 * n + 1) 255); [|rewrite <- FL; exact I'].
  rewrite <- block_free_zr. symmetry. apply (chain_det t' _ _ (ht_nextfree t')); [|apply (hv_chain I')].
  rewrite <- Et. cbn [ht_nextfree]. unfold block_free. change (Z.to_nat (256 - 1)) with 255%nat.
  apply (chain_seq D _ n 255 1); try lia.
  intros j Hj. unfold itm. rewrite ptr_of_add by lia. cbn [fst snd ht_item].
  unfold clear_next. rewrite item_upd_other by (intros EE; inversion EE; lia). rewrite F1 by lia. reflexivity.
Qed.

(** [HX t live freed top]: the table holds exactly [live], and will hand out [freed], then [top]+1, [top]+2, ... *)
Definition HX t (live freed : list Z) (top : Z) : Prop :=
  (ht_need_init t = true /\ live = [] /\ freed = [] /\ top = 0) \/
  (exists high, HInv D t live (freed ++ zr (top + 1) (256 * ht_nblocks t - 1 - top)) high /\
                0 <= top < 256 * ht_nblocks t).

Lemma hx_ok t live freed top : HX t live freed top -> exists high, HOk D t live high.
Proof.
  intros [(A & B & C & E)|(high & I & _)].
  - exists 0. left. auto.
  - exists high. right. eauto.
Qed.

Lemma hx_init junk : HX (htab_init junk) [] [] 0.
Proof. left. auto. Qed.

Lemma hx_destroy t live freed top : HX t live freed top -> HX (destroy_handles t) [] [] 0.
Proof. intros _. left. unfold destroy_handles. destruct (ht_need_init t) eqn:E; auto. Qed.

Lemma hx_nodup t live freed top : HX t live freed top -> NoDup live.
Proof. intros H. destruct (hx_ok _ _ _ _ H) as (high & O). eapply hok_nodup; eauto. Qed.

Lemma NoDup_app_l {A} (l r : list A) : NoDup (l ++ r) -> NoDup l.
Proof.
  induction l as [|x l IH]; simpl; intros ND; [constructor|]. inversion ND; subst.
  constructor; auto. rewrite in_app_iff in H1. tauto.
Qed.
Lemma NoDup_app_r {A} (l r : list A) : NoDup (l ++ r) -> NoDup r.
Proof. induction l as [|x l IH]; simpl; intros ND; auto. inversion ND; subst. auto. Qed.

Lemma NoDup_app_disj {A} (l r : list A) x : NoDup (l ++ r) -> In x l -> In x r -> False.
Proof.
  induction l as [|y l IH]; simpl; intros ND; [tauto|]. inversion ND; subst. rewrite in_app_iff in H1.
  intros [->|H] Hr; [tauto|]. eauto.
Qed.

Lemma hx_alloc t live freed top : HX t live freed top ->
  match next_handle freed top with
  | Some (h, freed', top') =>
      exists t', alloc_handle t = Ok (h, ptr_of h, t') /\ ~ In h live /\ 1 <= h <= CAPACITY /\
        HX t' (h :: live) freed' top' /\ (forall k, In k live -> itm D t' k = itm D t k)
  | None => exists m, alloc_handle t = Abort m
  end.
Proof.
  assert (Main : forall t high, HInv D t live (freed ++ zr (top + 1) (256 * ht_nblocks t - 1 - top)) high ->
    0 <= top < 256 * ht_nblocks t ->
    match next_handle freed top with
    | Some (h, freed', top') =>
        exists t', alloc_handle t = Ok (h, ptr_of h, t') /\ ~ In h live /\ 1 <= h <= CAPACITY /\
          HX t' (h :: live) freed' top' /\ (forall k, In k live -> itm D t' k = itm D t k)
    | None => exists m, alloc_handle t = Abort m
    end).
  { clear t. intros t high I T. pose proof (hinv_count _ _ _ _ _ I) as CNT. pose proof (hv_nb I) as NB.
    pose proof (live_le_cap _ _ _ _ _ I) as CAP. rewrite app_length in CNT.
    assert (ZL : forall a n, Z.of_nat (length (zr a n)) = Z.max 0 n).
    { intros a n. unfold zr. rewrite map_length, seq_length. lia. }
    rewrite Nat2Z.inj_add, ZL in CNT. unfold MAX_BLOCKS in NB.
    unfold next_handle. destruct freed as [|f r].
    - cbn [length app] in *. destruct (Z.eqb_spec top CAPACITY) as [->|NE].
      + unfold CAPACITY in *. rewrite zr_nil in I by lia. eapply alloc_full; [exact I|]. unfold CAPACITY. lia.
      + destruct (Z_lt_le_dec top (256 * ht_nblocks t - 1)) as [L|G].
        * rewrite zr_cons in I by lia.
          destruct (alloc_ok_inited D t live _ high I) as (h & fl' & t' & E & N & B & I' & K & F & M & R).
          { unfold CAPACITY. lia. }
          destruct (F _ _ eq_refl) as (-> & -> & _). exists t'. repeat (split; [assumption|]). split; auto.
          assert (NBE : ht_nblocks t' = ht_nblocks t).
          { pose proof (hinv_count _ _ _ _ _ I') as CNT'. cbn [length] in CNT'. rewrite Nat2Z.inj_succ, ZL in CNT'. lia. }
          right. exists (Z.max high (Z.of_nat (length live) + 1)). rewrite NBE. split; [|lia]. cbn [app].
          replace (256 * ht_nblocks t - 1 - (top + 1)) with (256 * ht_nblocks t - 1 - top - 1) by lia. exact I'.
        * assert (top = 256 * ht_nblocks t - 1) by lia. subst top. rewrite zr_nil in I by lia.
          destruct (alloc_grow t live high I) as (t' & E & I' & K & NB').
          { unfold CAPACITY in *. lia. }
          replace (256 * ht_nblocks t - 1 + 1) with (256 * ht_nblocks t) by lia.
          exists t'. split; [exact E|]. split; [|split; [unfold CAPACITY in *; lia|split; [|exact K]]].
          -- pose proof (hv_nodup I') as ND. cbn [app] in ND. inversion ND; subst. rewrite in_app_iff in H1. tauto.
          -- right. eexists. rewrite NB'. split; [|lia]. cbn [app].
             replace (256 * (ht_nblocks t + 1) - 1 - 256 * ht_nblocks t) with 255 by lia. exact I'.
    - cbn [length] in CNT.
      destruct (alloc_ok_inited D t live _ high I) as (h & fl' & t' & E & N & B & I' & K & F & M & R).
      { unfold CAPACITY. lia. }
      destruct (F f (r ++ zr (top + 1) (256 * ht_nblocks t - 1 - top)) eq_refl) as (-> & -> & _).
      exists t'. repeat (split; [assumption|]). split; auto.
      assert (NBE : ht_nblocks t' = ht_nblocks t).
      { pose proof (hinv_count _ _ _ _ _ I') as CNT'. rewrite app_length in CNT'. cbn [length] in CNT'.
        rewrite Nat2Z.inj_add, Nat2Z.inj_succ, ZL in CNT'. lia. }
      right. eexists. rewrite NBE. split; [exact I'|lia]. }
  intros [(Hi & -> & -> & ->)|(high & I & T)]; [|exact (Main t high I T)].
  destruct (init_handles_ok D t) as (t1 & E1 & I1 & D1 & N1).
  assert (AE : alloc_handle t = alloc_handle t1).
  { unfold alloc_handle. rewrite Hi, E1, (hv_init I1). reflexivity. }
  rewrite block_free_zr in I1.
  specialize (Main t1 0). rewrite N1 in Main. specialize (Main I1 ltac:(lia)).
  unfold next_handle in *. change (0 =? CAPACITY) with false in *. cbv iota in *.
  destruct Main as (t' & E & N & B & X & K). exists t'. rewrite AE. repeat (split; [assumption|]).
  intros k [].
Qed.

Lemma hx_to_ptr t live freed top h : HX t live freed top -> In h live ->
  handle_to_ptr h t = Ok (Some (ptr_of h), t).
Proof. intros H L. destruct (hx_ok _ _ _ _ H) as (high & O). eapply to_ptr_spec; eauto. Qed.

Lemma hx_to_null t live freed top : HX t live freed top ->
  exists t', handle_to_ptr 0 t = Ok (None, t') /\ HX t' live freed top /\ (forall k, In k live -> itm D t' k = itm D t k).
Proof.
  intros [(Hi & -> & -> & ->)|(high & I & T)].
  - destruct (init_handles_ok D t) as (t1 & E1 & I1 & D1 & N1).
    exists t1. unfold handle_to_ptr. rewrite Hi, E1. cbn [bind Z.eqb]. split; [reflexivity|].
    split; [|intros k []]. right. exists 0. rewrite N1. rewrite block_free_zr in I1. split; [exact I1|lia].
  - exists t. unfold handle_to_ptr. rewrite (hv_init I). cbn [bind Z.eqb]. split; [reflexivity|].
    split; auto. right; eauto.
Qed.

Lemma hx_read t live freed top h : HX t live freed top -> In h live ->
  h_read t (ptr_of h) = Ok (hi_data (itm D t h)).
Proof. intros H L. destruct (hx_ok _ _ _ _ H) as (high & O). eapply read_spec; eauto. Qed.

Lemma hx_write t live freed top h d : HX t live freed top -> In h live ->
  exists t', h_write t (ptr_of h) d = Ok t' /\ HX t' live freed top /\
    hi_data (itm D t' h) = d /\ (forall k, k <> h -> itm D t' k = itm D t k).
Proof.
  intros [(_ & -> & _)|(high & I & T)] L; [destruct L|].
  destruct (h_write_live D t live _ high h d I L) as (t' & E & I' & A & B & _ & NB).
  exists t'. repeat (split; [assumption|]). split; auto. right. exists high. rewrite NB. auto.
Qed.

Lemma hx_free t live freed top h : HX t live freed top -> In h live ->
  exists t', free_handle h t = Ok t' /\ HX t' (remove_id h live) (h :: freed) top /\
    (forall k, k <> h -> itm D t' k = itm D t k).
Proof.
  intros [(_ & -> & _)|(high & I & T)] L; [destruct L|].
  destruct (free_ok D t live _ high h I L) as (t' & E & I' & A & B & NB).
  exists t'. repeat (split; [assumption|]). split; auto. right. exists high. rewrite NB. auto.
Qed.

Lemma hx_cap t live freed top : HX t live freed top -> 0 <= top <= CAPACITY.
Proof.
  intros [(_ & _ & _ & ->)|(high & I & T)]; [unfold CAPACITY; lia|].
  pose proof (hv_nb I). unfold MAX_BLOCKS, CAPACITY in *. lia.
Qed.

Lemma hx_range t live freed top h : HX t live freed top -> In h live -> 1 <= h <= CAPACITY.
Proof. intros H L. destruct (hx_ok _ _ _ _ H) as (high & O). eapply hok_range; eauto. Qed.

End HandleExact.

(** Every history of creations, frees, loads and stores of live handles follows the order [next_handle]. *)
Section InOrder.
Variable D : Type.
Fixpoint in_order (ops : list (hop D)) (t : htab D) (live freed : list Z) (top : Z) : Prop :=
  match ops with
  | [] => True
  | HAlloc _ :: r =>
      match next_handle freed top with
      | Some (h, freed, top) => exists t', hexec (HAlloc D) t = Ok (HHandle D h, t') /\ in_order r t' (h :: live) freed top
      | None => exists m, hexec (HAlloc D) t = Abort m
      end
  | HFree _ h :: r => In h live ->
      exists t', hexec (HFree D h) t = Ok (HUnit D, t') /\ in_order r t' (filter (fun x => negb (x =? h)) live) (h :: freed) top
  | HLoad _ h :: r => In h live -> exists d, hexec (HLoad D h) t = Ok (HData d, t) /\ in_order r t live freed top
  | HStore h d :: r => In h live -> exists t', hexec (HStore h d) t = Ok (HUnit D, t') /\ in_order r t' live freed top
  | HDestroy _ :: r => exists t', hexec (HDestroy D) t = Ok (HUnit D, t') /\ in_order r t' [] [] 0
  end.
Lemma in_order_hx : forall ops t live freed top, HX D t live freed top -> in_order ops t live freed top.
Proof.
  induction ops as [|[|h|h|h d|] ops IH]; intros t live freed top X; cbn [in_order hexec]; auto.
  - pose proof (hx_alloc D t live freed top X) as A. destruct (next_handle freed top) as [[[h fr] tp]|].
    + destruct A as (t' & E & _ & _ & X' & _). exists t'. rewrite E. auto.
    + destruct A as (m & E). exists m. rewrite E. reflexivity.
  - intros L. destruct (hx_free D _ _ _ _ _ X L) as (t' & E & X' & _). exists t'. rewrite E. split; auto.
  - intros L. exists (hi_data (itm D t h)). rewrite (hx_to_ptr D _ _ _ _ _ X L). cbn [bind]. rewrite (hx_read D _ _ _ _ _ X L). auto.
  - intros L. destruct (hx_write D _ _ _ _ _ d X L) as (t' & E & X' & _). exists t'. rewrite (hx_to_ptr D _ _ _ _ _ X L). cbn [bind]. rewrite E. auto.
  - exists (destroy_handles t). split; auto. apply IH. eapply hx_destroy; eauto.
Qed.
Lemma in_order_init junk ops : in_order ops (htab_init junk) [] [] 0.
Proof. apply in_order_hx, hx_init. Qed.
End InOrder.
