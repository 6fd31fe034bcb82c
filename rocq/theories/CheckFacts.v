(** Proofs for C97. *)
From Verif Require Import Base ListModel ListProofs ListSpec ListRefine HandleModel HandleSpec HandleProofs CheckModel CheckSpec.

Section Handles.
Variable D : Type.
Implicit Types t : htab D.

Definition clean t (live : list Z) : Prop := forall h, In h live -> hi_next (itm D t h) = None.

Lemma verify_ok t live fl high h : HInv D t live fl high -> 0 <= h < 256 * ht_nblocks t ->
  verify_handle t h (HANDLE_TO_BLOCK h) (HANDLE_TO_INDEX h) = Ok tt.
Proof.
  intros I R. pose proof (ptr_of_handle h) as E. unfold ptr_of in E. injection E as E1 E2.
  unfold verify_handle. rewrite E1, E2. unfold BLOCK_ITEMS.
  pose proof (Z.mod_pos_bound h 256 ltac:(lia)). pose proof (Z.div_mod h 256 ltac:(lia)).
  destruct (Z.leb_spec (ht_nblocks t) (h / 256)); [lia|]. destruct (Z.ltb_spec (h / 256) 0); [lia|].
  destruct (Z.leb_spec 256 (h mod 256)); [lia|]. destruct (Z.ltb_spec (h mod 256) 0); [lia|]. cbn [orb].
  change (h / 256, h mod 256) with (ptr_of h). rewrite h_get_ok by lia. cbn [bind].
  rewrite (hv_handle _ _ _ _ _ I) by lia. rewrite Z.eqb_refl. reflexivity.
Qed.
Lemma verify_bad t h : ~ 0 <= h < 256 * ht_nblocks t ->
  verify_handle t h (HANDLE_TO_BLOCK h) (HANDLE_TO_INDEX h) = Abort "mpi_verify_handle: bad handle".
Proof.
  intros R. pose proof (ptr_of_handle h) as E. unfold ptr_of in E. injection E as E1 E2.
  unfold verify_handle. rewrite E1, E2. unfold BLOCK_ITEMS.
  pose proof (Z.mod_pos_bound h 256 ltac:(lia)). pose proof (Z.div_mod h 256 ltac:(lia)).
  destruct (Z.leb_spec (ht_nblocks t) (h / 256)); [reflexivity|]. destruct (Z.ltb_spec (h / 256) 0); [reflexivity|lia].
Qed.

Lemma alloc_clean t live high h p t' : HOk D t live high -> clean t live -> alloc_handle t = Ok (h, p, t') ->
  Z.of_nat (length live) < CAPACITY -> clean t' (h :: live).
Proof.
  intros HK C E LT.
  destruct (alloc_spec D _ _ _ HK LT) as (h1 & t1 & E1 & NI & R & HK' & FR).
  rewrite E in E1. injection E1 as -> -> <-.
  intros k [<-|Hk]; [|rewrite FR by exact Hk; apply C; exact Hk].
  clear HK' FR NI R LT HK C.
  unfold alloc_handle in E. apply bind_ok in E. destruct E as (t0 & _ & E).
  destruct (ht_nextfree t0) as [new|].
  - apply bind_ok in E. destruct E as (it & _ & E). apply bind_ok in E. destruct E as (t2 & E2 & E).
    unfold h_put in E2. destruct (valid_ptr _ new); [|discriminate]. apply Ok_inj in E2. subst t2.
    apply Ok_inj in E. assert (E4 : ptr_of h1 = new) by congruence. assert (E5 := f_equal snd E). cbn [snd] in E5. subst t'.
    unfold itm. cbn [ht_item]. rewrite E4, item_upd_same. reflexivity.
  - destruct (_ =? _); [discriminate|]. apply bind_ok in E. destruct E as (f & _ & E).
    apply Ok_inj in E. assert (E4 : ptr_of h1 = (ht_nblocks t0, 0)) by congruence. assert (E5 := f_equal snd E). cbn [snd] in E5. subst t'.
    unfold itm. cbn [ht_item]. rewrite E4. cbn [fst snd]. unfold clear_next. rewrite item_upd_same. reflexivity.
Qed.

Lemma live_range t live fl high h : HInv D t live fl high -> In h live -> 1 <= h < 256 * ht_nblocks t.
Proof. intros I Hl. apply (hv_range _ _ _ _ _ I). apply in_or_app; auto. Qed.

Lemma silent t a op : HAbs D t a -> clean t (map fst (hs_live D a)) -> hlegal D a op -> ck_hexec op t = hexec op t.
Proof.
  intros [HK DT] C L. destruct op as [|h|h|h d|]; try reflexivity; cbn [hlegal] in L;
    (destruct (hlook D h (hs_live D a)) as [x|] eqn:LK; [|congruence]); apply hlook_in in LK;
    (destruct HK as [(_ & E & _)|(fl & I)]; [rewrite E in LK; destruct LK|]);
    pose proof (live_range _ _ _ _ _ I LK) as R;
    pose proof (verify_ok _ _ _ _ h I ltac:(lia)) as V; cbn [ck_hexec hexec].
  - unfold ck_free_handle, free_handle. destruct (Z.eqb_spec h 0); [lia|]. rewrite (hv_init _ _ _ _ _ I). cbn [fst snd].
    rewrite V. cbn [bind]. rewrite ptr_of_handle, h_get_ok by lia. cbn [bind]. rewrite (C h LK). reflexivity.
  - unfold ck_handle_to_ptr, handle_to_ptr. rewrite (hv_init _ _ _ _ _ I). cbn [bind]. destruct (Z.eqb_spec h 0); [lia|].
    cbn [fst snd]. rewrite V. reflexivity.
  - unfold ck_handle_to_ptr, handle_to_ptr. rewrite (hv_init _ _ _ _ _ I). cbn [bind]. destruct (Z.eqb_spec h 0); [lia|].
    cbn [fst snd]. rewrite V. reflexivity.
Qed.

Lemma step_clean t a op out t' a' : HAbs D t a -> clean t (map fst (hs_live D a)) -> hlegal D a op ->
  hexec op t = Ok (out, t') -> hstep D a op out a' -> clean t' (map fst (hs_live D a')).
Proof.
  intros [HK DT] C L E S. inversion S; subst; cbn [hexec hs_live map fst] in *.
  - apply bind_ok in E. destruct E as ([[h1 p1] t1] & E & E2). apply Ok_inj in E2. injection E2 as -> ->.
    eapply alloc_clean; eauto. rewrite map_length. assumption.
  - apply bind_ok in E. destruct E as (t1 & E & E2). apply Ok_inj in E2. injection E2 as ->.
    assert (Hl := hlook_in _ _ _ _ H). destruct HK as [(_ & EE & _)|(fl & I)]; [rewrite EE in Hl; destruct Hl|].
    destruct (free_ok _ _ _ _ _ _ I Hl) as (t2 & F & _ & _ & FR & _). rewrite F in E. apply Ok_inj in E. rewrite E in FR.
    intros k Hk. rewrite hdrop_fst in Hk. apply in_remove_id in Hk. destruct Hk as [Hk Hne].
    rewrite FR by congruence. apply C. assumption.
  - apply bind_ok in E. destruct E as ([p t1] & E & E2).
    assert (Hl := hlook_in _ _ _ _ H). rewrite (to_ptr_spec _ _ _ _ _ HK Hl) in E. apply Ok_inj in E. injection E as <- <-.
    apply bind_ok in E2. destruct E2 as (d' & _ & E2). apply Ok_inj in E2. injection E2 as -> ->. exact C.
  - apply bind_ok in E. destruct E as ([p t1] & E & E2).
    assert (Hl := hlook_in _ _ _ _ H). rewrite (to_ptr_spec _ _ _ _ _ HK Hl) in E. apply Ok_inj in E. injection E as <- <-.
    apply bind_ok in E2. destruct E2 as (t2 & E2 & E3). apply Ok_inj in E3. injection E3 as ->.
    rewrite hset_fst. intros k Hk. unfold h_write in E2. apply bind_ok in E2. destruct E2 as (it & G & E2).
    unfold h_put in E2. unfold h_get in G. destruct (valid_ptr t (ptr_of h)); [|discriminate]. apply Ok_inj in G, E2. subst it t'.
    unfold itm. cbn [ht_item]. rewrite item_upd_ptr. destruct (Z.eqb_spec k h) as [->|]; [cbn [hi_next]|]; apply C; assumption.
  - intros k [].
Qed.

Lemma hafter_clean ops : forall t a (P : htab D -> hstate D -> Prop),
  HAbs D t a -> clean t (map fst (hs_live D a)) ->
  (forall t a, HAbs D t a -> clean t (map fst (hs_live D a)) -> P t a) -> hafter D ops t a P.
Proof.
  induction ops as [|op r IH]; intros t a P A C HP; simpl; auto.
  intros Lg. destruct (hstep_refines D t a op A Lg) as [(out & t' & a' & E & S & A')|H]; [left|right; exact H].
  exists out, t', a'. split; [exact E|]. split; [exact S|]. apply IH; [exact A'|exact (step_clean _ _ _ _ _ _ A C Lg E S)|exact HP].
Qed.

Lemma C97_silent_lemma (junk : Z -> Z -> hitem D) ops :
  hafter D ops (htab_init junk) (mkHstate D [] 0) (fun t a => forall op, hlegal D a op -> ck_hexec op t = hexec op t).
Proof.
  apply hafter_clean; [apply habs_init|intros k []|]. intros t a A C op L. eapply silent; eauto.
Qed.

(** What is caught. *)
Lemma chain_last t : forall fl p h, chain D t p fl -> In h fl -> NoDup fl -> hi_next (itm D t h) = None -> exists r, fl = r ++ [h].
Proof.
  induction fl as [|x r IH]; intros p h CH Hin ND HN; [destruct Hin|].
  destruct CH as [_ CH]. destruct Hin as [->|Hin].
  - rewrite HN in CH. destruct r as [|y r]; [exists []; reflexivity|]. destruct CH as [CH _]. discriminate.
  - inversion ND; subst. destruct (IH _ h CH Hin) as (q & ->); auto. exists (x :: q). reflexivity.
Qed.

Lemma load_checked t live fl high h : HInv D t live fl high -> h <> 0 ->
  ck_hexec (HLoad D h) t = if (1 <=? h) && (h <? 256 * ht_nblocks t) then hexec (HLoad D h) t else Abort "mpi_verify_handle: bad handle".
Proof.
  intros I N. cbn [ck_hexec hexec]. unfold ck_handle_to_ptr, handle_to_ptr. rewrite (hv_init _ _ _ _ _ I). cbn [bind].
  destruct (Z.eqb_spec h 0); [contradiction|]. cbn [fst snd].
  destruct (Z.leb_spec 1 h); destruct (Z.ltb_spec h (256 * ht_nblocks t)); cbn [andb];
    try (rewrite verify_bad by lia; reflexivity).
  rewrite (verify_ok _ _ _ _ h I) by lia. reflexivity.
Qed.
Lemma store_checked t live fl high h d : HInv D t live fl high -> h <> 0 ->
  ck_hexec (HStore h d) t = if (1 <=? h) && (h <? 256 * ht_nblocks t) then hexec (HStore h d) t else Abort "mpi_verify_handle: bad handle".
Proof.
  intros I N. cbn [ck_hexec hexec]. unfold ck_handle_to_ptr, handle_to_ptr. rewrite (hv_init _ _ _ _ _ I). cbn [bind].
  destruct (Z.eqb_spec h 0); [contradiction|]. cbn [fst snd].
  destruct (Z.leb_spec 1 h); destruct (Z.ltb_spec h (256 * ht_nblocks t)); cbn [andb];
    try (rewrite verify_bad by lia; reflexivity).
  rewrite (verify_ok _ _ _ _ h I) by lia. reflexivity.
Qed.
Lemma free_checked t live fl high h : HInv D t live fl high -> ~ In h live -> h <> 0 ->
  (exists m, ck_hexec (HFree D h) t = Abort m) \/ (exists r, fl = r ++ [h]).
Proof.
  intros I NL N. cbn [ck_hexec]. unfold ck_free_handle. destruct (Z.eqb_spec h 0); [contradiction|].
  rewrite (hv_init _ _ _ _ _ I). cbn [fst snd].
  destruct (Z_lt_le_dec h 1); [rewrite verify_bad by lia; left; eexists; reflexivity|].
  destruct (Z_lt_le_dec h (256 * ht_nblocks t)) as [LT|]; [|rewrite verify_bad by lia; left; eexists; reflexivity].
  rewrite (verify_ok _ _ _ _ h I) by lia. cbn [bind]. rewrite ptr_of_handle, h_get_ok by lia. cbn [bind].
  destruct (hi_next (itm D t h)) as [q|] eqn:EN; [left; eexists; reflexivity|]. right.
  assert (Hin : In h (live ++ fl)) by (apply (hv_range _ _ _ _ _ I); lia).
  apply in_app_iff in Hin. destruct Hin as [Hin|Hin]; [contradiction|].
  eapply chain_last; eauto; [exact (hv_chain _ _ _ _ _ I)|].
  pose proof (hv_nodup _ _ _ _ _ I) as ND. clear - ND. induction live; [exact ND|]. inversion ND; subst; auto.
Qed.

Lemma C97_caught_lemma (junk : Z -> Z -> hitem D) ops :
  hafter D ops (htab_init junk) (mkHstate D [] 0) (fun t a => ht_need_init t = false -> forall h, h <> 0 ->
    let inside := 1 <= h < 256 * ht_nblocks t in
    (inside -> ck_hexec (HLoad D h) t = hexec (HLoad D h) t /\ forall d, ck_hexec (HStore h d) t = hexec (HStore h d) t) /\
    (~ inside -> (forall out t', hexec (HLoad D h) t <> Ok (out, t')) /\
       ck_hexec (HLoad D h) t = Abort "mpi_verify_handle: bad handle" /\
       ck_hexec (HFree D h) t = Abort "mpi_verify_handle: bad handle" /\
       forall d, ck_hexec (HStore h d) t = Abort "mpi_verify_handle: bad handle") /\
    (hlook D h (hs_live D a) = None -> forall k, k <> 0 -> k <> h -> hlook D k (hs_live D a) = None ->
       (exists m, ck_hexec (HFree D h) t = Abort m) \/ (exists m, ck_hexec (HFree D k) t = Abort m))).
Proof.
  apply hafter_init. intros t a [HK DT] NI h N.
  destruct HK as [(E & _)|(fl & I)]; [congruence|].
  split; [|split].
  - intros R. split; [|intros d]; [rewrite (load_checked _ _ _ _ h I N)|rewrite (store_checked _ _ _ _ h d I N)];
      (destruct (Z.leb_spec 1 h); [|lia]); (destruct (Z.ltb_spec h (256 * ht_nblocks t)); [|lia]); reflexivity.
  - intros R.
    assert (B : (1 <=? h) && (h <? 256 * ht_nblocks t) = false).
    { destruct (Z.leb_spec 1 h); destruct (Z.ltb_spec h (256 * ht_nblocks t)); try reflexivity; lia. }
    split; [|split; [|split]].
    + intros out t'. cbn [hexec]. unfold handle_to_ptr. rewrite NI. cbn [bind]. destruct (Z.eqb_spec h 0); [contradiction|].
      rewrite ptr_of_handle. unfold h_get.
      destruct (valid_ptr t (ptr_of h)) eqn:V; [apply valid_ptr_of in V; lia|]. cbn [bind]. discriminate.
    + rewrite (load_checked _ _ _ _ h I N), B. reflexivity.
    + cbn [ck_hexec]. unfold ck_free_handle. destruct (Z.eqb_spec h 0); [contradiction|]. rewrite NI. cbn [fst snd].
      rewrite verify_bad by lia. reflexivity.
    + intros d. rewrite (store_checked _ _ _ _ h d I N), B. reflexivity.
  - intros NL k Nk Ne NLk. apply hlook_none in NL, NLk.
    destruct (free_checked _ _ _ _ h I NL N) as [X|(r & X)]; [left; exact X|].
    destruct (free_checked _ _ _ _ k I NLk Nk) as [Y|(q & Y)]; [right; exact Y|].
    exfalso. rewrite X in Y. apply app_inj_tail in Y. destruct Y as [_ Y]. congruence.
Qed.
End Handles.

Section Lists.
Variable D : Type.
Variable deq : D -> D -> bool.

(** Items outside duplicates say which list they are in. *)
Definition owned (w : Z -> Z) (a : lstate D) (dups : list Z) : Prop :=
  forall l xs i d, look D l a = Some xs -> In (i, d) xs -> ~ In l dups -> w i = l.

Lemma look_drop a l k xs : look D k (drop D l a) = Some xs -> look D k a = Some xs.
Proof.
  induction a as [|[j ys] r IH]; cbn [drop filter fst look]; [discriminate|].
  destruct (Z.eqb_spec j l); cbn [negb].
  - intros H. destruct (Z.eqb_spec j k); [|apply IH; exact H]. subst.
    exfalso. clear - H. unfold drop in H. induction r as [|[j ys'] r IH]; cbn [filter fst look] in H; [discriminate|].
    destruct (Z.eqb_spec j k); cbn [negb] in H; [auto|]. cbn [look] in H. destruct (Z.eqb_spec j k); [contradiction|auto].
  - cbn [look]. destruct (j =? k); auto.
Qed.

Lemma owned_replace w a dups l xs ys : owned w a dups -> look D l a = Some xs ->
  (forall i d, In (i, d) ys -> In (i, d) xs \/ w i = l) -> owned w (replace D l ys a) dups.
Proof.
  intros O L H k zs i d LK Hin ND. rewrite look_replace in LK. rewrite L in LK.
  destruct (Z.eqb_spec k l) as [->|NE].
  - injection LK as <-. destruct (H _ _ Hin) as [X|X]; [eapply O; eauto|exact X].
  - eapply O; eauto.
Qed.

Lemma step_checked h w a dups op : Abs D h a -> owned w a dups -> legal D a op -> fits D a op -> keeps D dups op ->
  exists out h' w' a', lexec deq op h = Ok (out, h') /\ ck_lexec deq op (h, w) = Ok (out, (h', w')) /\
    lstep D deq a op out a' /\ Abs D h' a' /\ owned w' a' (duplicates D dups op out).
Proof.
  intros A O L F K. destruct (step_refines D deq h a op A L F) as (out & h' & a' & E & S & A').
  assert (SAME : (forall l, op <> ODup D l) -> op <> ONew D -> ck_lexec deq op (h, w) = Ok (out, (h', w)) -> owned w a' dups ->
    exists out h' w' a', lexec deq op h = Ok (out, h') /\ ck_lexec deq op (h, w) = Ok (out, (h', w')) /\
    lstep D deq a op out a' /\ Abs D h' a' /\ owned w' a' (duplicates D dups op out)).
  { intros ND NN C OW. exists out, h', w, a'. do 4 (split; [assumption|]).
    replace (duplicates D dups op out) with dups; [exact OW|]. destruct op; try reflexivity; [congruence|exfalso; eapply ND; reflexivity]. }
  destruct op as [|l|l|l d|l d|l d|l i|l|l|l|l d|l f|l t|l|l f|l|l|];
    try (apply SAME; [congruence|congruence|cbn [ck_lexec fst snd]; rewrite E; reflexivity|inversion S; subst; exact O]).
  - (* new *)
    exists out, h', w, a'. split; [exact E|]. split; [cbn [ck_lexec fst snd]; rewrite E; reflexivity|]. split; [exact S|]. split; [exact A'|].
    inversion S; subst. cbn [duplicates]. intros k xs i d LK Hin ND. cbn [look] in LK.
    destruct (Z.eqb_spec l k) as [->|NE]; [injection LK as <-; destruct Hin|].
    eapply O; eauto. intros X. apply ND. apply filter_In. split; [exact X|]. destruct (Z.eqb_spec k l); [congruence|reflexivity].
  - (* free *)
    apply SAME; [congruence|congruence|cbn [ck_lexec fst snd]; rewrite E; reflexivity|].
    inversion S; subst. intros k ys i d LK. apply look_drop in LK. eapply O; eauto.
  - (* prepend *)
    cbn [lexec] in E. apply bind_ok in E. destruct E as ([n h1] & E & E1). apply Ok_inj in E1. injection E1 as <- ->.
    exists (RPtr D (Some n)), h', (upd w n l), a'. split; [cbn [lexec]; rewrite E; reflexivity|].
    split; [cbn [ck_lexec fst snd]; unfold ck_prepend; cbn [fst snd]; rewrite E; reflexivity|]. split; [exact S|]. split; [exact A'|].
    inversion S; subst. cbn [duplicates]. match goal with U : unused D n a, LL : look D l a = Some _ |- _ => rename U into UN; rename LL into LK0 end.
    intros k ys i e LK Hin ND. rewrite look_replace, LK0 in LK. unfold upd.
    destruct (Z.eqb_spec i n) as [->|NEi].
    + destruct (Z.eqb_spec k l); [congruence|]. exfalso. eapply UN; eauto.
    + destruct (Z.eqb_spec k l) as [->|NE]; [|eapply O; eauto].
      injection LK as <-. destruct Hin as [Hin|Hin]; [congruence|eapply O; eauto].
  - (* append *)
    cbn [lexec] in E. apply bind_ok in E. destruct E as ([n h1] & E & E1). apply Ok_inj in E1. injection E1 as <- ->.
    exists (RPtr D (Some n)), h', (upd w n l), a'. split; [cbn [lexec]; rewrite E; reflexivity|].
    split; [cbn [ck_lexec fst snd]; unfold ck_append; cbn [fst snd]; rewrite E; reflexivity|]. split; [exact S|]. split; [exact A'|].
    inversion S; subst. cbn [duplicates]. match goal with U : unused D n a, LL : look D l a = Some _ |- _ => rename U into UN; rename LL into LK0 end.
    intros k ys i e LK Hin ND. rewrite look_replace, LK0 in LK. unfold upd.
    destruct (Z.eqb_spec i n) as [->|NEi].
    + destruct (Z.eqb_spec k l); [congruence|]. exfalso. eapply UN; eauto.
    + destruct (Z.eqb_spec k l) as [->|NE]; [|eapply O; eauto].
      injection LK as <-. apply in_app_iff in Hin. destruct Hin as [Hin|[Hin|[]]]; [eapply O; eauto|congruence].
  - (* delete *)
    cbn [keeps] in K. cbn [legal] in L. destruct (look D l a) as [xs|] eqn:LK; [|congruence].
    assert (Hl := look_in _ _ _ _ LK). assert (G := gof_look _ _ _ _ LK). pose proof (proj1 A) as I.
    apply SAME; [congruence|congruence| |].
    + cbn [ck_lexec lexec] in *. unfold ck_delete. unfold list_delete in E. cbn [fst snd].
      rewrite (list_search_ok D deq d I Hl) in *. cbn [bind] in *. rewrite G in *.
      destruct (seq_find D (fun x => deq x d) xs) as [i|] eqn:SF.
      * destruct (seq_find_split D SF) as (ys & e & zs & EX & _).
        unfold ck_delete_item. cbn [fst snd].
        assert (Hin : In (i, e) xs) by (rewrite EX; apply in_or_app; right; left; reflexivity).
        assert (LI : lh_items h i <> None).
        { eapply dseg_in; [apply (li_seg I Hl)|]. rewrite G. apply (in_map fst) in Hin. exact Hin. }
        unfold get_item. destruct (lh_items h i); [|congruence]. cbn [bind].
        rewrite (O _ _ _ _ LK Hin K), Z.eqb_refl. cbn [negb].
        destruct (list_delete_item l (Some i) h) as [h2| | | |]; cbn [bind] in *; try discriminate.
        apply Ok_inj in E. injection E as <- ->. reflexivity.
      * cbn [bind] in *. apply Ok_inj in E. injection E as <- ->. reflexivity.
    + inversion S; subst.
      * match goal with LL : look D l a = Some _ |- _ => eapply owned_replace; [exact O|exact LL|] end.
        intros j e' Hin. left. apply in_app_iff in Hin. apply in_or_app. simpl. tauto.
      * exact O.
  - (* delete item *)
    cbn [keeps] in K. cbn [legal] in L. destruct L as (xs & d & LK & Hin).
    assert (Hl := look_in _ _ _ _ LK). assert (G := gof_look _ _ _ _ LK). pose proof (proj1 A) as I.
    apply SAME; [congruence|congruence| |].
    + cbn [ck_lexec lexec] in *. unfold ck_delete_item. cbn [fst snd].
      assert (LI : lh_items h i <> None).
      { eapply dseg_in; [apply (li_seg I Hl)|]. rewrite G. apply (in_map fst) in Hin. exact Hin. }
      unfold get_item. destruct (lh_items h i); [|congruence]. cbn [bind].
      rewrite (O _ _ _ _ LK Hin K), Z.eqb_refl. cbn [negb].
      destruct (list_delete_item l (Some i) h) as [h2| | | |]; cbn [bind] in *; try discriminate.
      apply Ok_inj in E. injection E as <- ->. reflexivity.
    + inversion S; subst. match goal with LL : look D l a = Some _ |- _ => eapply owned_replace; [exact O|exact LL|] end.
      intros j e' Hj. left. apply in_app_iff in Hj. apply in_or_app. simpl. tauto.
  - (* dup *)
    exists out, h', w, a'. split; [exact E|]. split; [cbn [ck_lexec fst snd]; rewrite E; reflexivity|]. split; [exact S|]. split; [exact A'|].
    inversion S; subst. cbn [duplicates]. intros k zs i e LK Hin ND. cbn [look] in LK.
    destruct (Z.eqb_spec n k) as [->|NE]; [exfalso; apply ND; left; reflexivity|].
    eapply O; eauto. intros X. apply ND. right. exact X.
Qed.

Lemma wrong_list h w a dups l xs i d l' : Abs D h a -> owned w a dups -> look D l a = Some xs -> In (i, d) xs -> ~ In l dups -> l' <> l ->
  ck_lexec deq (ODeleteItem D l' i) (h, w) = Abort "AP_list_delete_item: item is not in list".
Proof.
  intros A O LK Hin ND NE. pose proof (proj1 A) as I.
  assert (Hl := look_in _ _ _ _ LK). assert (G := gof_look _ _ _ _ LK).
  cbn [ck_lexec]. unfold ck_delete_item. cbn [fst snd].
  assert (LI : lh_items h i <> None).
  { eapply dseg_in; [apply (li_seg I Hl)|]. rewrite G. apply (in_map fst) in Hin. exact Hin. }
  unfold get_item. destruct (lh_items h i); [|congruence]. cbn [bind]. rewrite (O _ _ _ _ LK Hin ND).
  destruct (Z.eqb_spec l l'); [congruence|]. reflexivity.
Qed.

Lemma C97_lists_lemma (junk : Z -> item D) (w : Z -> Z) ops :
  ck_after D deq ops (lheap_init junk) w [] [] (fun h w a dups =>
    forall l xs i d l', look D l a = Some xs -> In (i, d) xs -> ~ In l dups -> l' <> l ->
      ck_lexec deq (ODeleteItem D l' i) (h, w) = Abort "AP_list_delete_item: item is not in list").
Proof.
  assert (A0 := abs_init D junk).
  assert (O0 : owned w (@nil (Z * list (Z * D))) []) by (intros l xs i d H; discriminate).
  generalize dependent (@nil Z). generalize dependent w. generalize dependent (@nil (Z * list (Z * D))). generalize (lheap_init junk) as h.
  induction ops as [|op r IH]; intros h a A w dups O; cbn [ck_after].
  - intros l xs i d l' LK Hin ND NE. eapply wrong_list; eauto.
  - intros L F K. destruct (step_checked _ _ _ _ _ A O L F K) as (out & h' & w' & a' & E & C & S & A' & O').
    exists out, h', w', a'. do 3 (split; [assumption|]). apply IH; assumption.
Qed.
End Lists.

Lemma C97_verify_lemma : forall (D : Type) (t : htab D) (handle block index : Z),
  (0 <= block < ht_nblocks t /\ 0 <= index < 256 -> hi_handle (ht_item t block index) = handle -> verify_handle t handle block index = Ok tt) /\
  (0 <= block < ht_nblocks t /\ 0 <= index < 256 -> hi_handle (ht_item t block index) <> handle -> verify_handle t handle block index = Abort "mpi_verify_handle: handle mismatch") /\
  (~ (0 <= block < ht_nblocks t /\ 0 <= index < 256) -> verify_handle t handle block index = Abort "mpi_verify_handle: bad handle").
Proof.
  intros D t handle block index. unfold verify_handle, h_get, valid_ptr, BLOCK_ITEMS. cbn [fst snd].
  destruct (Z.leb_spec (ht_nblocks t) block), (Z.ltb_spec block 0), (Z.leb_spec 256 index), (Z.ltb_spec index 0); cbn [orb];
    try (split; [intros; exfalso; lia|split; [intros; exfalso; lia|intros _; reflexivity]]).
  destruct (Z.leb_spec 0 block); [|lia]. destruct (Z.ltb_spec block (ht_nblocks t)); [|lia]. destruct (Z.leb_spec 0 index); [|lia].
  destruct (Z.ltb_spec index 256); [|lia]. cbn [andb bind].
  destruct (Z.eqb_spec (hi_handle (ht_item t block index)) handle); cbn [negb]; (split; [intros; first [reflexivity|exfalso; congruence]|split; [intros; first [reflexivity|exfalso; congruence]|intros; exfalso; lia]]).
Qed.
