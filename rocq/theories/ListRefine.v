(** The list.c model refines the sequence specification, for every history. *)
From Verif Require Import Base ListModel ListProofs ListSpec.

Section ListRefine.
Variable D : Type.

Definition gof (a : lstate D) (l : Z) : list (Z * D) :=
  match look D l a with Some xs => xs | None => [] end.

Definition names (a : lstate D) : list Z := map fst a.

Definition Abs (h : lheap D) (a : lstate D) : Prop :=
  LInv D h (names a) (gof a) /\ total D a <= INT_MAX /\ Z.of_nat (length a) <= INT_MAX.

Lemma look_in a l xs : look D l a = Some xs -> In l (names a).
Proof.
  induction a as [|[k ys] r IH]; simpl; [discriminate|].
  destruct (Z.eqb_spec k l); auto.
Qed.

Lemma look_none a l : look D l a = None <-> ~ In l (names a).
Proof.
  induction a as [|[k ys] r IH]; simpl; [tauto|].
  destruct (Z.eqb_spec k l) as [->|Hne].
  - split; [discriminate|]. intros H; exfalso; auto.
  - rewrite IH. intuition.
Qed.

Lemma look_some a l : In l (names a) -> exists xs, look D l a = Some xs.
Proof.
  intros H. destruct (look D l a) as [xs|] eqn:E; [eauto|].
  apply look_none in E. contradiction.
Qed.

Lemma gof_look a l xs : look D l a = Some xs -> gof a l = xs.
Proof. unfold gof. intros ->. reflexivity. Qed.

Lemma names_replace l xs a : names (replace D l xs a) = names a.
Proof.
  unfold names, replace. rewrite map_map. apply map_ext_in. intros [k ys] _. simpl.
  destruct (Z.eqb_spec k l); simpl; auto.
Qed.

Lemma look_replace a l xs k : look D k (replace D l xs a) =
  if k =? l then (match look D l a with Some _ => Some xs | None => None end) else look D k a.
Proof.
  induction a as [|[j ys] r IH]; simpl.
  - destruct (k =? l); reflexivity.
  - destruct (Z.eqb_spec j l) as [->|Hjl]; simpl.
    + destruct (Z.eqb_spec l k) as [->|Hlk].
      * rewrite Z.eqb_refl. reflexivity.
      * rewrite IH. destruct (Z.eqb_spec k l); [congruence|reflexivity].
    + destruct (Z.eqb_spec j k) as [->|Hjk].
      * destruct (Z.eqb_spec k l); [congruence|reflexivity].
      * exact IH.
Qed.

Lemma gof_replace a l xs k : In l (names a) -> gof (replace D l xs a) k = upd (gof a) l xs k.
Proof.
  intros H. unfold gof, upd. rewrite look_replace. destruct (Z.eqb_spec k l) as [->|]; auto.
  destruct (look_some a l H) as [ys ->]. reflexivity.
Qed.

Lemma total_sumlen a : NoDup (names a) -> total D a = sumlen D (names a) (gof a).
Proof.
  induction a as [|[k xs] r IH]; simpl; intros ND; auto. inversion ND; subst.
  rewrite IH by auto. f_equal.
  - unfold gof. simpl. rewrite Z.eqb_refl. reflexivity.
  - apply sumlen_ext. intros l Hl. unfold gof. simpl.
    destruct (Z.eqb_spec k l); [subst; contradiction|reflexivity].
Qed.

Lemma names_drop l a : names (drop D l a) = remove_id l (names a).
Proof.
  unfold names, drop, remove_id. induction a as [|[k xs] r IH]; simpl; auto.
  destruct (k =? l); simpl; rewrite IH; reflexivity.
Qed.

Lemma gof_drop a l k : k <> l -> gof (drop D l a) k = gof a k.
Proof.
  intros H. unfold gof. induction a as [|[j xs] r IH]; simpl; auto.
  destruct (Z.eqb_spec j l) as [->|Hjl]; simpl.
  - rewrite IH. destruct (Z.eqb_spec l k); [congruence|reflexivity].
  - destruct (j =? k); auto.
Qed.

Lemma abs_intro h a : LInv D h (names a) (gof a) -> lh_itemcount h <= INT_MAX ->
  lh_headcount h <= INT_MAX -> Abs h a.
Proof.
  intros I H1 H2. split; [exact I|]. rewrite (total_sumlen a) by apply (li_nodup I).
  rewrite <- (li_ic I). split; auto.
  rewrite (li_hc I) in H2. unfold names in H2. rewrite map_length in H2. exact H2.
Qed.

Lemma abs_ic h a : Abs h a -> lh_itemcount h = total D a.
Proof. intros (I & _ & _). rewrite (li_ic I), (total_sumlen a); auto. apply (li_nodup I). Qed.

Lemma abs_hc h a : Abs h a -> lh_headcount h = Z.of_nat (length a).
Proof. intros (I & _ & _). rewrite (li_hc I). unfold names. rewrite map_length. reflexivity. Qed.

Lemma total_replace a l xs ys : NoDup (names a) -> look D l a = Some xs ->
  total D (replace D l ys a) = total D a - Z.of_nat (length xs) + Z.of_nat (length ys).
Proof.
  intros ND L. assert (Hl := look_in _ _ _ L).
  rewrite (total_sumlen (replace D l ys a)), (total_sumlen a) by (rewrite ?names_replace; auto).
  rewrite names_replace.
  rewrite (@sumlen_ext D _ (upd (gof a) l ys)).
  - rewrite sumlen_upd by auto. rewrite (gof_look _ _ _ L). reflexivity.
  - intros k Hk. rewrite gof_replace; auto.
Qed.

Lemma fresh_unused h a : Abs h a -> forall i, lh_next h <= i -> unused D i a.
Proof.
  intros (I & _ & _) i Hi l xs d L Hin.
  assert (Hl := look_in _ _ _ L).
  assert (0 < i < lh_next h); [|lia].
  apply (li_ifresh I). eapply dseg_in; [apply (li_seg I Hl)|].
  rewrite (gof_look _ _ _ L). apply in_map_iff. exists (i, d). auto.
Qed.

Lemma abs_replace h h' a l xs : Abs h a -> In l (names a) ->
  LInv D h' (names a) (upd (gof a) l xs) ->
  lh_itemcount h' <= INT_MAX -> lh_headcount h' <= INT_MAX ->
  Abs h' (replace D l xs a).
Proof.
  intros A Hl I H1 H2. apply abs_intro; auto. rewrite names_replace.
  eapply linv_ext; [exact I|]. intros k Hk. apply gof_replace; auto.
Qed.

Lemma first_ref xs : first D xs None = ref_head D xs.
Proof. destruct xs as [|[i d] r]; reflexivity. Qed.

Lemma is_first_find f xs : is_first D f xs (seq_find D f xs).
Proof.
  destruct (seq_find D f xs) as [i|] eqn:F; simpl.
  - exact (seq_find_split D F).
  - apply seq_find_none. exact F.
Qed.

Lemma sums_accum f : forall xs acc, accum_ok D f acc xs -> sums_ok D f acc xs.
Proof. induction xs as [|[i d] r IH]; simpl; intros acc H; auto. destruct H; split; auto. Qed.

Lemma seq_sum_sum f : forall xs, seq_sum D f xs = sum D f xs.
Proof. induction xs as [|[i d] r IH]; simpl; auto. rewrite IH. reflexivity. Qed.

Lemma linv_hc_le h h' ids g g' : LInv D h ids g -> LInv D h' ids g' -> lh_headcount h <= INT_MAX ->
  lh_headcount h' <= INT_MAX.
Proof. intros I I' H. rewrite (li_hc I'). rewrite (li_hc I) in H. exact H. Qed.

Variable deq : D -> D -> bool.

Lemma step_refines h a op : Abs h a -> legal D a op -> fits D a op ->
  exists out h' a', lexec deq op h = Ok (out, h') /\ lstep D deq a op out a' /\ Abs h' a'.
Proof.
  intros A Lg Ft. pose proof (abs_ic _ _ A) as IC. pose proof (abs_hc _ _ A) as HC.
  pose proof A as (I & TM & LM). pose proof (li_nodup I) as ND.
  assert (LK : forall l, look D l a <> None -> exists xs, look D l a = Some xs /\ In l (names a) /\ gof a l = xs).
  { intros l H. destruct (look D l a) as [xs|] eqn:E; [|congruence].
    exists xs. repeat split; auto. eapply look_in; eauto. apply gof_look; auto. }
  assert (OBS : forall out, lexec deq op h = Ok (out, h) -> lstep D deq a op out a ->
     exists out h' a', lexec deq op h = Ok (out, h') /\ lstep D deq a op out a' /\ Abs h' a').
  { intros out E S. exists out, h, a. auto. }
  assert (HCM : lh_headcount h <= INT_MAX) by lia.
  assert (ICM : lh_itemcount h <= INT_MAX) by lia.
  destruct op as [|l|l|l d|l d|l d|l i|l|l|l|l d|l f|l t|l|l f|l|l|]; cbn [legal fits] in Lg, Ft.
  - (* new *)
    destruct (list_new_ok D I) as (h' & E & Hn & I' & NX & _); [lia|].
    eexists _, h', _. cbn [lexec]. rewrite E. split; [reflexivity|].
    split; [apply s_new; apply look_none; exact Hn|].
    assert (IC' : lh_itemcount h' <= INT_MAX).
    { unfold list_new in E. apply bind_ok in E. destruct E as (c & _ & E). inversion E. simpl. lia. }
    apply abs_intro; auto.
    + eapply linv_ext; [exact I'|]. intros k Hk. unfold gof, upd. cbn [look].
      rewrite (Z.eqb_sym k). destruct (_ =? k); reflexivity.
    + rewrite (li_hc I'). cbn [length]. unfold names. rewrite map_length. lia.
  - (* free *)
    destruct (LK l Lg) as (xs & L & Hl & G).
    destruct (list_free_ok D I Hl ICM HCM) as (h' & E & I' & NX & _).
    eexists _, h', _. cbn [lexec]. rewrite E. split; [reflexivity|]. split; [eapply s_free; eauto|].
    apply abs_intro.
    + rewrite names_drop. eapply linv_ext; [exact I'|]. intros k Hk. apply gof_drop.
      apply in_remove_id in Hk. tauto.
    + rewrite (li_ic I'). rewrite sumlen_remove; auto.
      rewrite <- (li_ic I). pose proof (Nat2Z.is_nonneg (length (gof a l))). lia.
    + rewrite (li_hc I'). pose proof (remove_id_length ND Hl) as RL.
      rewrite (li_hc I) in HCM. lia.
  - (* size *)
    destruct (LK l Lg) as (xs & L & Hl & G).
    apply OBS with (out := RInt D (Z.of_nat (length xs))); [|apply s_size; auto].
    cbn [lexec]. rewrite (list_size_ok D I Hl), G. reflexivity.
  - (* prepend *)
    destruct (LK l Lg) as (xs & L & Hl & G).
    destruct (list_prepend_ok D d I Hl) as (h' & E & I' & NX & _); [lia|].
    eexists _, h', _. cbn [lexec]. rewrite E. split; [reflexivity|].
    split; [eapply s_prepend; eauto; eapply fresh_unused; eauto; lia|].
    rewrite G in I'. eapply abs_replace; eauto.
    + rewrite (li_ic I'), sumlen_upd by auto. rewrite <- (li_ic I), G. simpl length. lia.
    + exact (linv_hc_le _ _ _ _ _ I I' HCM).
  - (* append *)
    destruct (LK l Lg) as (xs & L & Hl & G).
    destruct (list_append_ok D d I Hl) as (h' & E & I' & NX & _); [lia|].
    eexists _, h', _. cbn [lexec]. rewrite E. split; [reflexivity|].
    split; [eapply s_append; eauto; eapply fresh_unused; eauto; lia|].
    rewrite G in I'. eapply abs_replace; eauto.
    + rewrite (li_ic I'), sumlen_upd by auto. rewrite <- (li_ic I), G, app_length. simpl length. lia.
    + exact (linv_hc_le _ _ _ _ _ I I' HCM).
  - (* delete *)
    destruct (LK l Lg) as (xs & L & Hl & G).
    destruct (list_delete_ok D deq d I Hl ICM) as (h' & E & I' & NX).
    rewrite G in E, I'. cbn [lexec]. rewrite E. cbn [bind].
    pose proof (is_first_find (fun x => deq x d) xs) as F.
    destruct (seq_find D (fun x => deq x d) xs) as [i|] eqn:SF.
    + destruct F as (ys & e & zs & EX & Fe & Hy).
      eexists _, h', _. split; [reflexivity|].
      split; [eapply s_delete_yes with (ys := ys) (zs := zs); eauto; rewrite L, EX; reflexivity|].
      assert (SD : seq_del_first D (fun x => deq x d) xs = ys ++ zs)
        by (rewrite EX; apply seq_del_first_split; auto).
      rewrite SD in I'. eapply abs_replace; eauto.
      * rewrite (li_ic I'), sumlen_upd by auto. rewrite <- (li_ic I), G, EX, !app_length. simpl length. lia.
      * exact (linv_hc_le _ _ _ _ _ I I' HCM).
    + simpl in F. eexists _, h', a. split; [reflexivity|]. split; [eapply s_delete_no; eauto|].
      assert (SD : seq_del_first D (fun x => deq x d) xs = xs).
      { clear - F. induction xs as [|[j e] r IH]; simpl in *; auto.
        rewrite (F j e) by auto. rewrite IH; eauto. }
      rewrite SD in I'.
      assert (I2 : LInv D h' (names a) (gof a)).
      { eapply linv_ext; [exact I'|]. intros k Hk. unfold upd. destruct (Z.eqb_spec k l) as [->|]; auto. }
      apply abs_intro; auto.
      * rewrite (li_ic I2), <- (li_ic I). exact ICM.
      * exact (linv_hc_le _ _ _ _ _ I I' HCM).
  - (* delete item *)
    destruct Lg as (xs & d & L & Hin). assert (Hl := look_in _ _ _ L). assert (G := gof_look _ _ _ L).
    destruct (in_split _ _ Hin) as (ys & zs & EX). rewrite EX in L, G.
    destruct (list_delete_item_ok D I Hl ICM G) as (h' & E & I' & NX & _).
    eexists _, h', _. cbn [lexec]. rewrite E. split; [reflexivity|].
    split; [eapply s_delete_item; eauto|].
    eapply abs_replace; eauto.
    * rewrite (li_ic I'), sumlen_upd by auto. rewrite <- (li_ic I), G, !app_length. simpl length. lia.
    * exact (linv_hc_le _ _ _ _ _ I I' HCM).
  - (* head item *)
    destruct (LK l Lg) as (xs & L & Hl & G).
    apply OBS with (out := RPtr D (ref_head D xs)); [|apply s_head_item; auto].
    cbn [lexec]. rewrite (list_head_item_ok D I Hl), G, first_ref. reflexivity.
  - (* head *)
    destruct (LK l Lg) as (xs & L & Hl & G).
    apply OBS with (out := RData (data_head D xs)); [|apply s_head; auto].
    cbn [lexec]. rewrite (list_head_ok D I Hl), G. destruct xs as [|[i d] r]; reflexivity.
  - (* tail *)
    destruct (LK l Lg) as (xs & L & Hl & G).
    apply OBS with (out := RData (data_head D (rev xs))); [|apply s_tail; auto].
    cbn [lexec]. rewrite (list_tail_ok D I Hl), G. destruct (rev xs) as [|[i d] r]; reflexivity.
  - (* search *)
    destruct (LK l Lg) as (xs & L & Hl & G).
    apply OBS with (out := RPtr D (seq_find D (fun x => deq x d) xs)).
    + cbn [lexec]. rewrite (list_search_ok D deq d I Hl), G. reflexivity.
    + eapply s_search; eauto. apply is_first_find.
  - (* search_func *)
    destruct (LK l Lg) as (xs & L & Hl & G).
    apply OBS with (out := RPtr D (seq_find D f xs)).
    + cbn [lexec]. rewrite (list_search_func_ok D (fun d => Ok (f d)) f I Hl), G by auto. reflexivity.
    + eapply s_search_func; eauto. apply is_first_find.
  - (* next *)
    destruct t as [i|].
    + destruct Lg as (xs & d & L & Hin). assert (Hl := look_in _ _ _ L). assert (G := gof_look _ _ _ L).
      destruct (in_split _ _ Hin) as (ys & zs & EX). rewrite EX in L, G.
      eapply OBS; [|eapply s_next; eauto].
      cbn [lexec]. rewrite (list_next_ok D ys i d zs I Hl G). reflexivity.
    + destruct (LK l Lg) as (xs & L & Hl & G).
      eapply OBS; [|eapply s_next_first; eauto].
      cbn [lexec]. rewrite (list_next_first_ok D I Hl), G. reflexivity.
  - (* dup *)
    destruct Ft as [F1 F2]. destruct (LK l Lg) as (xs & L & Hl & G). specialize (F2 xs L).
    destruct (list_duplicate_ok D I Hl) as (h' & E & Hn & I' & NX); [lia|rewrite G; lia|].
    rewrite G in I'.
    eexists _, h', _. cbn [lexec]. rewrite E. split; [reflexivity|]. split.
    + eapply s_dup with (xs := xs) (ys := fresh_copy D (lh_next h + 1) xs); auto.
      * apply look_none; auto.
      * apply fresh_copy_data.
      * apply fresh_copy_nodup.
      * intros i Hi. apply fresh_copy_ids in Hi. eapply fresh_unused; eauto. lia.
    + apply abs_intro.
      * eapply linv_ext; [exact I'|]. intros k Hk. unfold gof, upd. cbn [look].
        rewrite (Z.eqb_sym k). destruct (_ =? k); reflexivity.
      * rewrite (li_ic I'). cbn [sumlen]. rewrite upd_same, fresh_copy_length.
        rewrite (@sumlen_ext D _ (gof a)).
        -- rewrite <- (li_ic I). lia.
        -- intros k Hk. rewrite upd_other; auto. intros ->; auto.
      * rewrite (li_hc I'). cbn [length]. unfold names. rewrite map_length. lia.
  - (* apply *)
    destruct (LK l Lg) as (xs & L & Hl & G). specialize (Ft xs L).
    apply OBS with (out := RInt D (sum D f xs)); [|apply s_apply; auto].
    cbn [lexec]. rewrite (list_apply_ok D (fun d => Ok (f d)) f I Hl); [rewrite G, seq_sum_sum; reflexivity|auto|].
    rewrite G. apply sums_accum. exact Ft.
  - (* traverse *)
    destruct (LK l Lg) as (xs & L & Hl & G).
    apply OBS with (out := RSeq (map snd xs)); [|apply s_traverse; auto].
    cbn [lexec]. rewrite (list_traverse_ok D I Hl), G. reflexivity.
  - (* reverse *)
    destruct (LK l Lg) as (xs & L & Hl & G).
    apply OBS with (out := RSeq (rev (map snd xs))); [|apply s_rev; auto].
    cbn [lexec]. rewrite (list_rev_traverse_ok D I Hl), G. reflexivity.
  - (* verify *)
    eapply OBS; [|apply s_verify]. cbn [lexec]. f_equal. f_equal. f_equal.
    pose proof (verify_ok D I) as V. destruct a as [|e r].
    + simpl in V. destruct V as [_ V]. rewrite V; auto.
    + destruct (listitem_verify h); auto. destruct V as [V _]. specialize (V eq_refl). discriminate.
Qed.

Lemma after_all ops : forall h a (P : lheap D -> lstate D -> Prop), Abs h a -> (forall h a, Abs h a -> P h a) -> after D deq ops h a P.
Proof.
  induction ops as [|op r IH]; intros h a P A HP; simpl; auto.
  intros Lg Ft. destruct (step_refines h a op A Lg Ft) as (out & h' & a' & E & S & A').
  exists out, h', a'. auto.
Qed.

Lemma abs_init junk : Abs (lheap_init junk) [].
Proof.
  apply abs_intro; simpl; try (unfold INT_MAX; lia).
  eapply linv_ext; [apply linv_init|]. intros l [].
Qed.

Lemma after_init junk ops (P : lheap D -> lstate D -> Prop) : (forall h a, Abs h a -> P h a) -> after D deq ops (lheap_init junk) [] P.
Proof. intros H. apply after_all; auto. apply abs_init. Qed.

(** Facts used by the property theorems. *)
Lemma abs_size_traverse h a l xs : Abs h a -> look D l a = Some xs ->
  list_size l h = Ok (Z.of_nat (length xs)) /\ list_traverse l h = Ok (map snd xs) /\
  list_rev_traverse l h = Ok (rev (map snd xs)).
Proof.
  intros (I & _ & _) L. assert (Hl := look_in _ _ _ L). assert (G := gof_look _ _ _ L).
  rewrite (list_size_ok D I Hl), (list_traverse_ok D I Hl), (list_rev_traverse_ok D I Hl), G. auto.
Qed.

Lemma abs_free_ok h a l xs : Abs h a -> look D l a = Some xs ->
  exists h', list_free l h = Ok h' /\ Abs h' (drop D l a).
Proof.
  intros A L. destruct (step_refines h a (OFree D l) A) as (out & h' & a' & E & S & A').
  - cbn [legal]. congruence.
  - exact Logic.I.
  - cbn [lexec] in E. destruct (list_free l h) as [h1| | | |]; cbn [bind] in E; try discriminate.
    inversion E; subst. inversion S; subst. eauto.
Qed.

Lemma abs_verify h a : Abs h a -> (listitem_verify h = false <-> a = []).
Proof.
  intros (I & _ & _). rewrite (verify_ok D I). unfold names.
  split; [intros H; apply map_eq_nil in H; auto | intros ->; reflexivity].
Qed.

Lemma abs_exec_total h a op : Abs h a -> legal D a op -> fits D a op -> is_ok (lexec deq op h) = true.
Proof.
  intros A L F. destruct (step_refines h a op A L F) as (out & h' & a' & E & _). rewrite E. reflexivity.
Qed.

End ListRefine.
