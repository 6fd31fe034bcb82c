(** Proofs for C98. *)
From Verif Require Import Base ListModel ListProofs ListSpec ListRefine HandleModel HandleSpec HandleProofs TypeModel AllocModel.

Section Lists.
Variable D : Type.
Lemma am_malloc_true (h : lheap D) : am_listitem_malloc true h = listitem_malloc h.
Proof. unfold am_listitem_malloc, listitem_malloc. destruct (chk_int _); reflexivity. Qed.
Lemma am_prepend_true l d (h : lheap D) : am_prepend true l d h = list_prepend l d h.
Proof.
  unfold am_prepend. rewrite am_malloc_true. unfold list_prepend.
  destruct (listitem_malloc h) as [[n h']| | | |]; reflexivity.
Qed.
Lemma am_append_true l d (h : lheap D) : am_append true l d h = list_append l d h.
Proof.
  unfold am_append. rewrite am_malloc_true. unfold list_append.
  destruct (listitem_malloc h) as [[n h']| | | |]; reflexivity.
Qed.
Lemma bind_ext {A B} (x : res A) (f g : A -> res B) : (forall a, f a = g a) -> bind x f = bind x g.
Proof. intros H. destruct x; cbn [bind]; auto. Qed.
Lemma am_dup_loop_true avail (T : forall k, avail k = true) : forall fuel k nl cur prev (h : lheap D),
  am_dup_loop avail k fuel nl cur prev h = dup_loop fuel nl cur prev h.
Proof.
  induction fuel as [|f IH]; intros k nl cur prev h; [reflexivity|]. cbn [am_dup_loop dup_loop].
  destruct cur as [c|]; [|reflexivity]. rewrite T, am_malloc_true.
  apply bind_ext. intros [n h1]. apply bind_ext. intros it. apply bind_ext. intros h2. apply bind_ext. intros h3.
  apply bind_ext. intros h4. apply bind_ext. intros it2. apply IH.
Qed.
Lemma am_duplicate_true avail (T : forall k, avail k = true) l (h : lheap D) : am_duplicate avail l h = list_duplicate l h.
Proof.
  unfold am_duplicate, list_duplicate. rewrite T. cbn [am_list_new negb].
  apply bind_ext. intros [nl h1]. apply bind_ext. intros hd. rewrite am_dup_loop_true by exact T. reflexivity.
Qed.

Lemma am_malloc_false {ids g} (h : lheap D) : ListProofs.LInv D h ids g -> lh_itemcount h < INT_MAX ->
  am_listitem_malloc false h = Abort "AP_listitem_malloc: malloc failure".
Proof.
  intros I H. unfold am_listitem_malloc.
  assert (N : 0 <= lh_itemcount h) by (rewrite (li_ic I); apply sumlen_nonneg).
  rewrite chk_int_ok; [reflexivity|unfold INT_MIN, INT_MAX in *; lia].
Qed.

(** A run of AP_list_duplicate either is the ordinary one or ends with a message. *)
Lemma am_dup_loop_any avail : forall fuel k nl cur prev (h : lheap D),
  am_dup_loop avail k fuel nl cur prev h = dup_loop fuel nl cur prev h \/
  am_dup_loop avail k fuel nl cur prev h = Abort "AP_listitem_malloc: malloc failure".
Proof.
  induction fuel as [|f IH]; intros k nl cur prev h; [left; reflexivity|]. cbn [am_dup_loop dup_loop].
  destruct cur as [c|]; [|left; reflexivity]. destruct (avail k).
  - rewrite am_malloc_true. destruct (listitem_malloc h) as [[n h1]| | | |]; cbn [bind]; try (left; reflexivity).
    destruct (get_item h1 (Some c)) as [it| | | |]; cbn [bind]; try (left; reflexivity).
    destruct (put_item h1 (Some n) _) as [h2| | | |]; cbn [bind]; try (left; reflexivity).
    destruct (put_item h2 (Some n) _) as [h3| | | |]; cbn [bind]; try (left; reflexivity).
    match goal with |- bind ?m _ = _ \/ _ => destruct m as [h4| | | |]; cbn [bind]; try (left; reflexivity) end.
    destruct (get_item h4 (Some c)) as [it2| | | |]; cbn [bind]; try (left; reflexivity).
    apply IH.
  - unfold am_listitem_malloc, listitem_malloc. destruct (chk_int (lh_itemcount h + 1)) as [n| | | |]; cbn [bind negb]; [right|left..]; reflexivity.
Qed.
Lemma am_duplicate_any avail l (h : lheap D) :
  am_duplicate avail l h = list_duplicate l h \/ exists m, am_duplicate avail l h = Abort m.
Proof.
  unfold am_duplicate, list_duplicate, am_list_new. destruct (avail 0%nat); cbn [negb]; [|right; eexists; reflexivity].
  destruct (list_new h) as [[nl h1]| | | |]; cbn [bind]; try (left; reflexivity).
  destruct (get_list h1 l) as [hd| | | |]; cbn [bind]; try (left; reflexivity).
  destruct (am_dup_loop_any avail (lfuel h1) 1 nl (l_head hd) None h1) as [E|E]; rewrite E; [left; reflexivity|right; eexists; reflexivity].
Qed.
End Lists.

Section Handles.
Variable D : Type.
Lemma am_alloc_true (t : htab D) : am_alloc_handle true t = alloc_handle t.
Proof.
  unfold am_alloc_handle. cbn [mpi_malloc negb bind].
  destruct (if ht_need_init t then init_handles t else Ok t) as [u| | | |] eqn:E;
    try (unfold alloc_handle; rewrite E; reflexivity).
  cbn [bind]. destruct (ht_nextfree u); [reflexivity|]. destruct (_ =? _); reflexivity.
Qed.
Lemma am_alloc_false (t : htab D) live high : HOk D t live high ->
  (forall x, am_alloc_handle false t = Ok x -> alloc_handle t = Ok x) /\
  (am_alloc_handle false t = alloc_handle t \/ am_alloc_handle false t = Abort "mpi_malloc: failed to allocate") /\
  (am_alloc_handle false t = Abort "mpi_malloc: failed to allocate" <->
     ht_need_init t = false /\ Z.of_nat (length live) = 256 * ht_nblocks t - 1 /\ ht_nblocks t < MAX_BLOCKS).
Proof.
  intros HK. unfold am_alloc_handle. cbn [mpi_malloc negb].
  destruct HK as [(NI & -> & _)|(fl & I)].
  - rewrite NI. destruct (init_handles_ok D t) as (t1 & E1 & I1 & _). rewrite E1. cbn [bind].
    pose proof (hv_chain _ _ _ _ _ I1) as CH.
    assert (exists x r, block_free 0 1 = x :: r) as (x & r & EX) by (eexists _, _; vm_compute; reflexivity).
    rewrite EX in CH. destruct CH as [CH _]. rewrite CH. split; [tauto|]. split; [left; reflexivity|].
    split; [|intros (A & _); congruence].
    intros A. exfalso. destruct (alloc_first D t NI) as (t' & E). congruence.
  - rewrite (hv_init _ _ _ _ _ I). cbn [bind]. pose proof (hinv_count _ _ _ _ _ I) as CNT. pose proof (hv_chain _ _ _ _ _ I) as CH.
    destruct (ht_nextfree t) as [p|] eqn:NF.
    + split; [tauto|]. split; [left; reflexivity|].
      destruct fl as [|f fl]; [cbn [chain] in CH; congruence|]. cbn [length] in CNT.
      split; [|intros (_ & A & _); lia]. intros A. exfalso.
      destruct (alloc_ok_inited D t live (f :: fl) high I) as (h & fl' & t' & E & _); [|congruence].
      pose proof (hv_nb _ _ _ _ _ I). unfold MAX_BLOCKS, CAPACITY in *. lia.
    + destruct (_ =? _) eqn:MB.
      * split; [tauto|]. split; [left; reflexivity|].
        split; [|intros (_ & _ & A); apply Z.eqb_eq in MB; lia]. intros A. unfold alloc_handle in A.
        rewrite (hv_init _ _ _ _ _ I) in A. cbn [bind] in A. rewrite NF, MB in A. discriminate.
      * cbn [bind]. split; [discriminate|]. split; [right; reflexivity|]. split; [intros _|reflexivity]. split; [reflexivity|].
        apply Z.eqb_neq in MB. pose proof (hv_nb _ _ _ _ _ I).
        destruct fl as [|f fl]; [|destruct CH as [CH _]; congruence]. cbn [length] in CNT. lia.
Qed.
End Handles.

Lemma C98_lists_lemma (D : Type) (deq : D -> D -> bool) (junk : Z -> item D) ops :
  after D deq ops (lheap_init junk) [] (fun h a =>
    (forall l d, total D a < INT_MAX ->
       am_append false l d h = Abort "AP_listitem_malloc: malloc failure" /\
       am_prepend false l d h = Abort "AP_listitem_malloc: malloc failure") /\
    am_list_new false h = Abort "AP_list_new: malloc failure").
Proof.
  apply after_init. intros h a A. pose proof (abs_ic D h a A) as IC. destruct A as (I & _). split; [|reflexivity].
  intros l d H. unfold am_append, am_prepend. rewrite (am_malloc_false D h I) by lia. split; reflexivity.
Qed.
Lemma C98_enough_lemma (D : Type) :
  (forall l d (h : lheap D), am_append true l d h = list_append l d h /\ am_prepend true l d h = list_prepend l d h /\ am_list_new true h = list_new h) /\
  (forall avail l (h : lheap D), (forall k, avail k = true) -> am_duplicate avail l h = list_duplicate l h) /\
  (forall avail l (h : lheap D), am_duplicate avail l h = list_duplicate l h \/ exists m, am_duplicate avail l h = Abort m) /\
  (forall t : htab D, am_alloc_handle true t = alloc_handle t).
Proof.
  split; [|split; [|split]].
  - intros l d h. rewrite am_append_true, am_prepend_true. repeat split; reflexivity.
  - intros avail l h T. apply am_duplicate_true. exact T.
  - intros avail l h. apply am_duplicate_any.
  - apply am_alloc_true.
Qed.
Lemma C98_handles_lemma (D : Type) (junk : Z -> Z -> hitem D) ops :
  hafter D ops (htab_init junk) (mkHstate D [] 0) (fun t a =>
    (am_alloc_handle false t = alloc_handle t \/ am_alloc_handle false t = Abort "mpi_malloc: failed to allocate") /\
    (am_alloc_handle false t = Abort "mpi_malloc: failed to allocate" <->
       ht_need_init t = false /\ nlive D a = 256 * ht_nblocks t - 1 /\ ht_nblocks t < 1024)).
Proof.
  apply hafter_init. intros t a [HK DT]. destruct (am_alloc_false D t _ _ HK) as (_ & B & C). split; [exact B|].
  rewrite map_length in C. exact C.
Qed.

Lemma pass1_short count blocklens displacements olds r : Z.of_nat (length olds) < count ->
  struct_pass1 count blocklens displacements olds <> Ok r.
Proof.
  intros L. unfold struct_pass1. rewrite (for_loop_split 0 (Z.of_nat (length olds)) count) by lia.
  destruct (for_loop 0 _ _ _) as [[[[[a b] x] y] n]| | | |]; cbn [bind]; try discriminate.
  rewrite for_loop_S by exact L. unfold arr_get at 1. destruct (Z.ltb_spec (Z.of_nat (length olds)) 0); [lia|].
  rewrite Nat2Z.id, (proj2 (nth_error_None _ _) (le_n _)). discriminate.
Qed.
Lemma C98_types_lemma c jk count blocklens displacements olds :
  am_type_struct c true jk count blocklens displacements olds = Type_struct c jk count blocklens displacements olds /\
  (forall t, Type_struct c jk count blocklens displacements olds = Ok t ->
    am_type_struct c false jk count blocklens displacements olds = UB "NULL datatype") /\
  (am_type_struct c false jk count blocklens displacements olds = UB "NULL datatype" \/
   am_type_struct c false jk count blocklens displacements olds = Type_struct c jk count blocklens displacements olds) /\
  (Z.of_nat (length olds) < count ->
   am_type_struct c false jk count blocklens displacements olds = Type_struct c jk count blocklens displacements olds).
Proof.
  pose proof (pass1_short count blocklens displacements olds) as N. unfold am_type_struct, Type_struct. cbn [negb].
  destruct (struct_pass1 count blocklens displacements olds) as [[[[[a b] x] y] n]| | | |]; cbn [bind]; (split; [reflexivity|]); (split; [intros t H; try discriminate; reflexivity|]);
    (split; [(left; reflexivity) || (right; reflexivity)|]); intros L; try reflexivity.
  destruct (N _ L eq_refl).
Qed.
