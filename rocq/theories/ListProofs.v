(** Proofs about the list.c model: every operation refines the obvious sequence operation. *)
From Verif Require Import Base ListModel.
From Coq Require Import Permutation.


Section ListProofs.
Variable D : Type.

Notation seq := (list (Z * D)).

Definition first (xs : seq) (n : option Z) : option Z :=
  match xs with [] => n | (i, _) :: _ => Some i end.

Fixpoint lastp (p : option Z) (xs : seq) : option Z :=
  match xs with [] => p | (i, _) :: r => lastp (Some i) r end.

(** [dseg f p xs n]: the cells of [f] form a doubly linked segment holding [xs],
    entered from [p] and continuing at [n]. *)
Fixpoint dseg (f : Z -> option (item D)) (p : option Z) (xs : seq) (n : option Z) : Prop :=
  match xs with
  | [] => True
  | (i, d) :: r => f i = Some (mkItem d p (first r n)) /\ dseg f (Some i) r n
  end.

Definition ids_of (xs : seq) : list Z := map fst xs.

Lemma first_app xs ys n : first (xs ++ ys) n = first xs (first ys n).
Proof. destruct xs as [|[i d] r]; reflexivity. Qed.

Lemma lastp_app : forall xs p ys, lastp p (xs ++ ys) = lastp (lastp p xs) ys.
Proof. induction xs as [|[i d] r IH]; intros p ys; simpl; auto. Qed.

Lemma dseg_app f : forall xs p ys n,
  dseg f p (xs ++ ys) n <-> dseg f p xs (first ys n) /\ dseg f (lastp p xs) ys n.
Proof.
  induction xs as [|[i d] r IH]; intros p ys n; simpl; [tauto|].
  rewrite IH, first_app. tauto.
Qed.

Lemma dseg_frame f f' : forall xs p n,
  (forall i, In i (ids_of xs) -> f' i = f i) -> dseg f p xs n -> dseg f' p xs n.
Proof.
  induction xs as [|[i d] r IH]; intros p n H; simpl; auto.
  intros [E S]. split.
  - rewrite H by (simpl; auto). exact E.
  - apply IH; auto. intros j Hj. apply H. simpl; auto.
Qed.

Lemma dseg_in f : forall xs p n i, dseg f p xs n -> In i (ids_of xs) -> f i <> None.
Proof.
  induction xs as [|[j d] r IH]; intros p n i; simpl; [tauto|].
  intros [E S] [H|H]; [subst; congruence | eapply IH; eauto].
Qed.

(** Change the [next] of the last cell. *)
Lemma dseg_set_next f p ys t d n n' :
  ~ In t (ids_of ys) ->
  dseg f p (ys ++ [(t, d)]) n ->
  dseg (upd f t (Some (mkItem d (lastp p ys) n'))) p (ys ++ [(t, d)]) n'.
Proof.
  intros Hn. rewrite !dseg_app. simpl. intros (S1 & E & _). repeat split.
  - eapply dseg_frame; [|exact S1]. intros i Hi. apply upd_other. intros ->; auto.
  - apply upd_same.
Qed.

(** Change the [prev] of the first cell. *)
Lemma dseg_set_prev f p p' i d r n :
  ~ In i (ids_of r) ->
  dseg f p ((i, d) :: r) n ->
  dseg (upd f i (Some (mkItem d p' (first r n)))) p' ((i, d) :: r) n.
Proof.
  intros Hn [E S]. simpl. split; [apply upd_same|].
  eapply dseg_frame; [|exact S]. intros j Hj. apply upd_other. intros ->; auto.
Qed.

Fixpoint sumlen (ids : list Z) (g : Z -> seq) : Z :=
  match ids with [] => 0 | l :: r => Z.of_nat (length (g l)) + sumlen r g end.

(** [LInv h ids g]: the live lists are exactly [ids]; list [l] holds the sequence [g l];
    lists are disjoint, nothing is leaked, the counters are right. *)
Record LInv (h : lheap D) (ids : list Z) (g : Z -> seq) : Prop := {
  li_nodup : NoDup ids;
  li_lists : forall l, In l ids ->
     lh_lists h l = Some (mkHdr (first (g l) None) (lastp None (g l)) (Z.of_nat (length (g l))));
  li_dead : forall l, ~ In l ids -> lh_lists h l = None;
  li_seg : forall l, In l ids -> dseg (lh_items h) None (g l) None;
  li_inodup : forall l, In l ids -> NoDup (ids_of (g l));
  li_disj : forall l l' i, In l ids -> In l' ids -> l <> l' ->
     In i (ids_of (g l)) -> ~ In i (ids_of (g l'));
  li_live : forall i, lh_items h i <> None -> exists l, In l ids /\ In i (ids_of (g l));
  li_ifresh : forall i, lh_items h i <> None -> 0 < i < lh_next h;
  li_lfresh : forall l, In l ids -> 0 < l < lh_next h;
  li_ic : lh_itemcount h = sumlen ids g;
  li_hc : lh_headcount h = Z.of_nat (length ids);
  li_next : 0 < lh_next h
}.

Arguments li_nodup {h ids g} _.
Arguments li_ic {h ids g} _.
Arguments li_hc {h ids g} _.
Arguments li_next {h ids g} _.
Arguments li_live {h ids g} _ {i} _.
Arguments li_ifresh {h ids g} _ {i} _.
Arguments li_lists {h ids g} _ {l} _.
Arguments li_dead {h ids g} _ {l} _.
Arguments li_seg {h ids g} _ {l} _.
Arguments li_inodup {h ids g} _ {l} _.
Arguments li_disj {h ids g} _ {l l' i} _ _ _ _ _.
Arguments li_lfresh {h ids g} _ {l} _.

Lemma sumlen_ext {ids g g'} : (forall l, In l ids -> length (g' l) = length (g l)) -> sumlen ids g' = sumlen ids g.
Proof.
  induction ids as [|l r IH]; simpl; intros H; auto.
  rewrite H by auto. rewrite IH; auto.
Qed.

Lemma sumlen_upd ids g l xs : NoDup ids -> In l ids ->
  sumlen ids (upd g l xs) = sumlen ids g - Z.of_nat (length (g l)) + Z.of_nat (length xs).
Proof.
  induction ids as [|a r IH]; simpl; intros Nd H; [tauto|].
  inversion Nd as [|x y Ha Nr]; subst. destruct H as [->|H].
  - rewrite upd_same. rewrite (@sumlen_ext r g (upd g l xs)); [lia|].
    intros l' H'. rewrite upd_other; auto. intros ->; auto.
  - rewrite upd_other by (intros ->; auto). rewrite IH by auto. lia.
Qed.

Lemma sumlen_le {ids} g {l} : In l ids -> Z.of_nat (length (g l)) <= sumlen ids g.
Proof.
  assert (P : forall r, 0 <= sumlen r g) by (induction r; simpl; lia).
  induction ids as [|a r IH]; simpl; [tauto|]. intros [->|H].
  - specialize (P r); lia.
  - specialize (IH H); lia.
Qed.

Lemma sumlen_nonneg ids g : 0 <= sumlen ids g.
Proof. induction ids; simpl; lia. Qed.

Lemma ids_of_length xs : length (ids_of xs) = length xs.
Proof. apply map_length. Qed.

Lemma ids_of_app xs ys : ids_of (xs ++ ys) = ids_of xs ++ ids_of ys.
Proof. apply map_app. Qed.

(** Pigeonhole: a list of live items is shorter than the fuel. *)
Lemma fuel_enough {h ids g l} : LInv h ids g -> In l ids -> (length (g l) < lfuel h)%nat.
Proof.
  intros I Hl. unfold lfuel.
  assert (L : (length (ids_of (g l)) <= length (map Z.of_nat (List.seq 0 (Z.to_nat (lh_next h)))))%nat).
  { apply NoDup_incl_length; [apply (li_inodup I Hl)|].
    intros i Hi. apply in_map_iff. exists (Z.to_nat i).
    assert (R : 0 < i < lh_next h).
    { apply (li_ifresh I). eapply dseg_in; [apply (li_seg I Hl)|exact Hi]. }
    split; [lia|]. apply in_seq. lia. }
  rewrite ids_of_length, map_length, seq_length in L. lia.
Qed.

(** One list changes, everything else is framed. *)
Lemma linv_update {h h' ids g l xs'} :
  LInv h ids g -> In l ids ->
  lh_lists h' l = Some (mkHdr (first xs' None) (lastp None xs') (Z.of_nat (length xs'))) ->
  (forall k, k <> l -> lh_lists h' k = lh_lists h k) ->
  dseg (lh_items h') None xs' None ->
  NoDup (ids_of xs') ->
  (forall i, ~ In i (ids_of (g l)) -> ~ In i (ids_of xs') -> lh_items h' i = lh_items h i) ->
  (forall i, In i (ids_of (g l)) -> ~ In i (ids_of xs') -> lh_items h' i = None) ->
  (forall i, In i (ids_of xs') -> In i (ids_of (g l)) \/ (lh_next h <= i < lh_next h')) ->
  lh_next h <= lh_next h' ->
  lh_itemcount h' = lh_itemcount h - Z.of_nat (length (g l)) + Z.of_nat (length xs') ->
  lh_headcount h' = lh_headcount h ->
  LInv h' ids (upd g l xs').
Proof.
  intros I Hl EL FL SEG ND FI DI NEW NX IC HC.
  assert (Hdisj : forall l' i, In l' ids -> l' <> l -> In i (ids_of (g l')) -> ~ In i (ids_of xs')).
  { intros l' i Hl' Hne Hi Hx. destruct (NEW i Hx) as [Ho|Hf].
    - apply (@li_disj _ _ _ I l l' i); auto.
    - assert (0 < i < lh_next h); [|lia].
      apply (li_ifresh I). eapply dseg_in; [apply (li_seg I Hl')|exact Hi]. }
  constructor.
  - apply (li_nodup I).
  - intros k Hk. destruct (Z.eq_dec k l) as [->|Hne].
    + rewrite upd_same. exact EL.
    + rewrite upd_other by auto. rewrite FL by auto. apply (li_lists I Hk).
  - intros k Hk. destruct (Z.eq_dec k l) as [->|Hne]; [contradiction|].
    rewrite FL by auto. apply (li_dead I); auto.
  - intros k Hk. destruct (Z.eq_dec k l) as [->|Hne].
    + rewrite upd_same. exact SEG.
    + rewrite upd_other by auto. eapply dseg_frame; [|apply (li_seg I Hk)].
      intros i Hi. apply FI; [|eapply Hdisj; eauto].
      intros Hi'. apply (@li_disj _ _ _ I l k i); auto.
  - intros k Hk. destruct (Z.eq_dec k l) as [->|Hne].
    + rewrite upd_same. exact ND.
    + rewrite upd_other by auto. apply (li_inodup I Hk).
  - intros k k' i Hk Hk' Hne Hi Hi'. unfold upd in *.
    destruct (Z.eqb_spec k l) as [->|N1]; destruct (Z.eqb_spec k' l) as [->|N2].
    + contradiction.
    + eapply Hdisj with (l' := k'); eauto.
    + eapply Hdisj with (l' := k); eauto.
    + exact (li_disj I Hk Hk' Hne Hi Hi').
  - intros i Hi.
    destruct (in_dec Z.eq_dec i (ids_of xs')) as [Hx|Hx].
    { exists l. rewrite upd_same. auto. }
    destruct (in_dec Z.eq_dec i (ids_of (g l))) as [Ho|Ho].
    { exfalso. apply Hi. apply DI; auto. }
    rewrite FI in Hi by auto. destruct (li_live I Hi) as (k & Hk & Hik).
    exists k. split; auto. rewrite upd_other; auto. intros ->; auto.
  - intros i Hi.
    destruct (in_dec Z.eq_dec i (ids_of xs')) as [Hx|Hx].
    { destruct (NEW i Hx) as [Ho|Hf].
      - assert (0 < i < lh_next h); [|lia].
        apply (li_ifresh I). eapply dseg_in; [apply (li_seg I Hl)|exact Ho].
      - pose proof (li_next I); lia. }
    destruct (in_dec Z.eq_dec i (ids_of (g l))) as [Ho|Ho].
    { exfalso. apply Hi. apply DI; auto. }
    rewrite FI in Hi by auto. pose proof (li_ifresh I Hi). lia.
  - intros k Hk. pose proof (li_lfresh I Hk). lia.
  - rewrite IC, (li_ic I), sumlen_upd; auto. apply (li_nodup I).
  - rewrite HC. apply (li_hc I).
  - pose proof (li_next I); lia.
Qed.

Lemma linv_ext {h ids g g'} : LInv h ids g -> (forall l, In l ids -> g' l = g l) -> LInv h ids g'.
Proof.
  intros I E. constructor; try solve [destruct I; assumption].
  - intros l Hl. rewrite E by auto. apply (li_lists I Hl).
  - intros l Hl. rewrite E by auto. apply (li_seg I Hl).
  - intros l Hl. rewrite E by auto. apply (li_inodup I Hl).
  - intros l l' i Hl Hl' Hne. rewrite !E by auto. apply (li_disj I Hl Hl' Hne).
  - intros i Hi. destruct (li_live I Hi) as (l & Hl & H). exists l. rewrite E by auto. auto.
  - rewrite (li_ic I). symmetry. apply sumlen_ext. intros l Hl. rewrite E; auto.
Qed.

Lemma linv_init junk : LInv (lheap_init junk) [] (fun _ => []).
Proof.
  constructor; simpl; intros; try tauto; try congruence; try lia; try constructor.
Qed.

(** *** AP_list_new *)
Lemma list_new_ok {h ids g} : LInv h ids g -> lh_headcount h < INT_MAX ->
  exists h', list_new h = Ok (lh_next h, h') /\ ~ In (lh_next h) ids /\
             LInv h' (lh_next h :: ids) (upd g (lh_next h) []) /\
             lh_next h' = lh_next h + 1 /\ lh_junk h' = lh_junk h.
Proof.
  intros I Hc. unfold list_new. cbn [bump_next set_lists lh_headcount].
  pose proof (li_hc I) as HC.
  rewrite chk_int_ok by (unfold INT_MIN in *; lia). cbn [bind].
  eexists. split; [reflexivity|].
  assert (Hn : ~ In (lh_next h) ids).
  { intros Hi. pose proof (li_lfresh I Hi). lia. }
  split; [exact Hn|]. split; [|split; reflexivity].
  assert (G : forall l, In l ids -> upd g (lh_next h) [] l = g l).
  { intros l Hl. apply upd_other. intros ->; auto. }
  constructor; cbn [set_headcount bump_next set_lists lh_items lh_lists lh_itemcount lh_headcount lh_next].
  - constructor; [exact Hn|apply (li_nodup I)].
  - intros l [<-|Hl].
    + rewrite !upd_same. reflexivity.
    + rewrite upd_other by (intros ->; auto). rewrite G by auto. apply (li_lists I Hl).
  - intros l Hl. simpl in Hl. rewrite upd_other by (intros ->; auto). apply (li_dead I). tauto.
  - intros l [<-|Hl]; [rewrite upd_same; exact Logic.I|]. rewrite G by auto. apply (li_seg I Hl).
  - intros l [<-|Hl]; [rewrite upd_same; constructor|]. rewrite G by auto. apply (li_inodup I Hl).
  - intros l l' i [<-|Hl] [<-|Hl'] Hne; rewrite ?upd_same, ?G by auto; simpl; auto.
    apply (li_disj I Hl Hl' Hne).
  - intros i Hi. destruct (li_live I Hi) as (l & Hl & H). exists l.
    split; [right; exact Hl|]. rewrite G by auto. exact H.
  - intros i Hi. pose proof (li_ifresh I Hi). lia.
  - intros l [<-|Hl]; [pose proof (li_next I); lia|]. pose proof (li_lfresh I Hl). lia.
  - cbn [sumlen]. rewrite upd_same. rewrite (@sumlen_ext ids g).
    + rewrite (li_ic I). simpl. lia.
    + intros l Hl. rewrite G; auto.
  - cbn [length]. rewrite HC. lia.
  - pose proof (li_next I). lia.
Qed.

Lemma get_list_ok {h ids g l} : LInv h ids g -> In l ids ->
  get_list h l = Ok (mkHdr (first (g l) None) (lastp None (g l)) (Z.of_nat (length (g l)))).
Proof. intros I Hl. unfold get_list. rewrite (li_lists I Hl). reflexivity. Qed.

Lemma seq_snoc (xs : seq) : xs = [] \/ exists ys t d, xs = ys ++ [(t, d)].
Proof.
  destruct xs as [|x r] using rev_ind; [left; reflexivity|].
  right. destruct x as [t d]. eauto.
Qed.

Lemma NoDup_snoc {ys : seq} {t d} : NoDup (ids_of (ys ++ [(t, d)])) -> ~ In t (ids_of ys) /\ NoDup (ids_of ys).
Proof.
  rewrite ids_of_app. simpl. intros H.
  apply NoDup_remove in H. rewrite app_nil_r in H. tauto.
Qed.

Lemma NoDup_app_l {A} (a b : list A) : NoDup (a ++ b) -> NoDup a.
Proof.
  induction a as [|x a IH]; simpl; intros H; [constructor|].
  inversion H; subst. constructor; auto. intros Hx. apply H2. apply in_or_app; auto.
Qed.
Lemma NoDup_app_r {A} (a b : list A) : NoDup (a ++ b) -> NoDup b.
Proof. induction a as [|x a IH]; simpl; intros H; auto. inversion H; auto. Qed.

Lemma NoDup_ids_snoc (ys : seq) n d : NoDup (ids_of ys) -> ~ In n (ids_of ys) -> NoDup (ids_of (ys ++ [(n, d)])).
Proof.
  intros H Hn. rewrite ids_of_app. simpl.
  apply Permutation_NoDup with (l := n :: ids_of ys).
  - apply Permutation_cons_append.
  - constructor; auto.
Qed.

Ltac heapcbn :=
  cbn [bind set_items set_lists set_itemcount set_headcount bump_next put_item put_list get_item get_list
       lh_items lh_lists lh_itemcount lh_headcount lh_next lh_junk
       w_data w_prev w_next w_head w_tail w_count it_data it_prev it_next l_head l_tail l_count].

Lemma fresh_not_in {h ids g l} : LInv h ids g -> In l ids -> ~ In (lh_next h) (ids_of (g l)).
Proof.
  intros I Hl Hi. assert (0 < lh_next h < lh_next h); [|lia].
  apply (li_ifresh I). eapply dseg_in; [apply (li_seg I Hl)|exact Hi].
Qed.

(** *** AP_list_append *)
Lemma list_append_ok {h ids g l} d : LInv h ids g -> In l ids -> lh_itemcount h < INT_MAX ->
  exists h', list_append l d h = Ok (lh_next h, h') /\
             LInv h' ids (upd g l (g l ++ [(lh_next h, d)])) /\
             lh_next h' = lh_next h + 1 /\ lh_junk h' = lh_junk h.
Proof.
  intros I Hl Hc. unfold list_append, listitem_malloc.
  pose proof (li_ic I) as IC. pose proof (sumlen_nonneg ids g) as SN.
  pose proof (sumlen_le g Hl) as SL.
  rewrite chk_int_ok by (unfold INT_MIN in *; lia).
  set (n := lh_next h).
  pose proof (fresh_not_in I Hl) as Hn. fold n in Hn.
  pose proof (li_lists I Hl) as EL.
  pose proof (li_inodup I Hl) as ND. pose proof (li_seg I Hl) as SG.
  heapcbn. rewrite upd_same. heapcbn. unfold get_list at 1. heapcbn. rewrite EL. heapcbn.
  rewrite upd_same. heapcbn. rewrite upd_same. heapcbn.
  destruct (seq_snoc (g l)) as [E|(ys & t & dt & E)]; rewrite E in *.
  - (* empty list *)
    cbn [lastp first length app] in *. unfold put_list at 1. heapcbn. rewrite EL. heapcbn.
    unfold put_list at 1. heapcbn. rewrite upd_same. heapcbn.
    unfold get_list at 1. heapcbn. rewrite upd_same. heapcbn.
    rewrite chk_int_ok by (unfold INT_MIN, INT_MAX; lia). heapcbn.
    unfold put_list. heapcbn. rewrite upd_same. heapcbn.
    eexists. split; [reflexivity|]. split; [|split; reflexivity].
    eapply linv_update; eauto; heapcbn.
    + rewrite upd_same. reflexivity.
    + intros k Hk. rewrite !upd_other by auto. reflexivity.
    + simpl. rewrite upd_same. split; auto.
    + simpl. repeat constructor; auto.
    + intros i _ Hi. simpl in Hi. rewrite !upd_other by (intros ->; auto). reflexivity.
    + intros i Hi. rewrite E in Hi. destruct Hi.
    + simpl. intros i [<-|[]]. right. unfold n; lia.
    + lia.
    + rewrite E. simpl. lia.
  - (* t is the current tail *)
    destruct (NoDup_snoc ND) as [Nt NDy].
    rewrite lastp_app, first_app in *. cbn [lastp first] in *.
    assert (Ht : t <> n).
    { intros ->. apply Hn. rewrite ids_of_app. apply in_or_app. simpl; auto. }
    assert (Et : lh_items h t = Some (mkItem dt (lastp None ys) None)).
    { apply dseg_app in SG. destruct SG as [_ [E' _]]. exact E'. }
    heapcbn. rewrite !upd_other by auto. rewrite Et. heapcbn.
    unfold put_list at 1. heapcbn. rewrite EL. heapcbn.
    unfold get_list at 1. heapcbn. rewrite upd_same. heapcbn.
    rewrite chk_int_ok by (unfold INT_MIN, INT_MAX in *; lia). heapcbn.
    unfold put_list. heapcbn. rewrite upd_same. heapcbn.
    eexists. split; [reflexivity|]. split; [|split; reflexivity].
    assert (Hny : ~ In n (ids_of ys)).
    { intros Hi. apply Hn. rewrite ids_of_app. apply in_or_app; auto. }
    assert (LEN : length ((ys ++ [(t, dt)]) ++ [(n, d)]) = S (length (ys ++ [(t, dt)])))
      by (rewrite !app_length; simpl; lia).
    eapply linv_update; eauto; heapcbn.
    + rewrite upd_same. rewrite LEN. unfold w_count, w_tail. heapcbn. f_equal. f_equal.
      * destruct ys as [|[a b] r]; reflexivity.
      * rewrite !lastp_app. reflexivity.
      * lia.
    + intros k Hk. rewrite !upd_other by auto. reflexivity.
    + apply dseg_app. rewrite lastp_app. cbn [first lastp dseg]. repeat split.
      * apply dseg_set_next with (n := None); auto.
        eapply dseg_frame; [|exact SG]. intros i Hi.
        assert (i <> n) by (intros ->; apply Hn; exact Hi).
        rewrite !upd_other by auto. reflexivity.
      * rewrite upd_other by auto. rewrite upd_same. reflexivity.
    + apply NoDup_ids_snoc; auto.
    + intros i _ Hi. rewrite ids_of_app, in_app_iff in Hi. rewrite ids_of_app, in_app_iff in Hi.
      simpl in Hi. rewrite !upd_other; auto; intros ->; apply Hi; auto.
    + intros i Hi Hi'. rewrite E in Hi. exfalso. apply Hi'. rewrite ids_of_app. apply in_or_app; auto.
    + intros i Hi. rewrite ids_of_app, in_app_iff in Hi. destruct Hi as [Hi|[<-|[]]].
      * left. rewrite E. exact Hi.
      * right. unfold n; simpl; lia.
    + lia.
    + rewrite E, LEN. lia.
Qed.

(** *** AP_list_prepend *)
Lemma list_prepend_ok {h ids g l} d : LInv h ids g -> In l ids -> lh_itemcount h < INT_MAX ->
  exists h', list_prepend l d h = Ok (lh_next h, h') /\
             LInv h' ids (upd g l ((lh_next h, d) :: g l)) /\
             lh_next h' = lh_next h + 1 /\ lh_junk h' = lh_junk h.
Proof.
  intros I Hl Hc. unfold list_prepend, listitem_malloc.
  pose proof (li_ic I) as IC. pose proof (sumlen_nonneg ids g) as SN.
  pose proof (sumlen_le g Hl) as SL.
  rewrite chk_int_ok by (unfold INT_MIN in *; lia).
  set (n := lh_next h).
  pose proof (fresh_not_in I Hl) as Hn. fold n in Hn.
  pose proof (li_lists I Hl) as EL.
  pose proof (li_inodup I Hl) as ND. pose proof (li_seg I Hl) as SG.
  heapcbn. rewrite upd_same. heapcbn. rewrite upd_same. heapcbn.
  unfold get_list at 1. heapcbn. rewrite EL. heapcbn. rewrite upd_same. heapcbn.
  destruct (g l) as [|[t dt] r] eqn:E.
  - cbn [first lastp length app] in *. unfold put_list at 1. heapcbn. rewrite EL. heapcbn.
    unfold get_list at 1. heapcbn. rewrite upd_same. heapcbn.
    unfold put_list at 1. heapcbn. rewrite upd_same. heapcbn.
    unfold get_list at 1. heapcbn. rewrite upd_same. heapcbn.
    rewrite chk_int_ok by (unfold INT_MIN, INT_MAX; lia). heapcbn.
    unfold put_list. heapcbn. rewrite upd_same. heapcbn.
    eexists. split; [reflexivity|]. split; [|split; reflexivity].
    eapply linv_update; eauto; heapcbn.
    + rewrite upd_same. reflexivity.
    + intros k Hk. rewrite !upd_other by auto. reflexivity.
    + simpl. rewrite upd_same. split; auto.
    + simpl. repeat constructor; auto.
    + intros i _ Hi. simpl in Hi. rewrite !upd_other by (intros ->; auto). reflexivity.
    + intros i Hi. rewrite E in Hi. destruct Hi.
    + simpl. intros i [<-|[]]. right. unfold n; lia.
    + lia.
    + rewrite E. simpl. lia.
  - cbn [first] in *.
    assert (Ht : t <> n) by (intros ->; apply Hn; simpl; auto).
    destruct SG as [Et SG].
    heapcbn. rewrite !upd_other by auto. rewrite Et. heapcbn.
    unfold put_list at 1. heapcbn. rewrite EL. heapcbn.
    unfold get_list at 1. heapcbn. rewrite upd_same. heapcbn.
    assert (LP : exists z, lastp None ((t, dt) :: r) = Some z).
    { clear. simpl. generalize t. induction r as [|[a b] r IH]; intros; simpl; eauto. }
    destruct LP as [z LP]. rewrite LP in *. heapcbn.
    unfold get_list at 1. heapcbn. rewrite upd_same. heapcbn.
    rewrite chk_int_ok by (unfold INT_MIN, INT_MAX in *; lia). heapcbn.
    unfold put_list. heapcbn. rewrite upd_same. heapcbn.
    eexists. split; [reflexivity|]. split; [|split; reflexivity].
    inversion ND as [|? ? Nt NDr]; subst.
    eapply linv_update; eauto; heapcbn.
    + rewrite upd_same. unfold w_count, w_tail, w_head. heapcbn. f_equal. f_equal.
      * simpl in LP. simpl. rewrite <- LP. reflexivity.
      * simpl length. lia.
    + intros k Hk. rewrite !upd_other by auto. reflexivity.
    + simpl. repeat split.
      * rewrite upd_other by auto. rewrite upd_same. reflexivity.
      * rewrite upd_same. reflexivity.
      * eapply dseg_frame; [|exact SG]. intros i Hi.
        assert (i <> n) by (intros E1; apply Hn; rewrite <- E1; simpl; auto).
        assert (i <> t) by (intros E1; apply Nt; rewrite <- E1; auto).
        rewrite !upd_other by auto. reflexivity.
    + simpl. constructor; auto.
    + intros i _ Hi. simpl in Hi. rewrite !upd_other; auto; intros ->; apply Hi; auto.
    + intros i Hi Hi'. rewrite E in Hi. exfalso. apply Hi'. simpl in *. tauto.
    + simpl. intros i [<-|Hi]; [right; unfold n; lia|]. left. rewrite E. simpl. exact Hi.
    + lia.
    + rewrite E. simpl length. lia.
Qed.

(** *** AP_list_delete_item *)
Lemma list_delete_item_ok {h ids g l i d ys zs} : LInv h ids g -> In l ids ->
  lh_itemcount h <= INT_MAX ->
  g l = ys ++ (i, d) :: zs ->
  exists h', list_delete_item l (Some i) h = Ok h' /\
             LInv h' ids (upd g l (ys ++ zs)) /\
             lh_next h' = lh_next h /\ lh_junk h' = lh_junk h.
Proof.
  intros I Hl Hc E. unfold list_delete_item.
  pose proof (li_ic I) as IC. pose proof (sumlen_nonneg ids g) as SN.
  pose proof (sumlen_le g Hl) as SL.
  pose proof (li_lists I Hl) as EL.
  pose proof (li_inodup I Hl) as ND. pose proof (li_seg I Hl) as SG.
  rewrite E in *.
  assert (LEN : length (ys ++ (i, d) :: zs) = S (length (ys ++ zs))).
  { rewrite !app_length. simpl. lia. }
  rewrite LEN in *.
  rewrite ids_of_app in ND. cbn [ids_of map fst] in ND.
  pose proof (NoDup_remove _ _ _ ND) as [NDr Ni]. fold (ids_of zs) in *.
  rewrite in_app_iff in Ni.
  apply dseg_app in SG. destruct SG as [SY [Ei SZ]].
  rewrite first_app, lastp_app in EL. cbn [first lastp] in *.
  unfold get_list at 1. rewrite EL. heapcbn.
  (* step 1: predecessor or head *)
  assert (HD : opt_eqb (Some i) (first ys (Some i)) = match ys with [] => true | _ => false end).
  { destruct ys as [|[a b] r]; simpl; [apply Z.eqb_refl|]. apply Z.eqb_neq. intros ->. apply Ni. simpl; auto. }
  rewrite HD. clear HD. cbn [get_item]. rewrite Ei. heapcbn.
  assert (TL : opt_eqb (Some i) (lastp (Some i) zs) = match zs with [] => true | _ => false end).
  { destruct zs as [|[a b] r]; simpl; [apply Z.eqb_refl|].
    destruct (seq_snoc r) as [->|(r' & t & dt & ->)]; simpl.
    - apply Z.eqb_neq. intros ->. apply Ni. simpl; auto.
    - rewrite lastp_app. simpl. apply Z.eqb_neq. intros ->. apply Ni. right. right.
      fold (ids_of (r' ++ [(t, dt)])). rewrite ids_of_app. apply in_or_app. simpl; auto. }
  assert (DONE : forall h1,
    lh_lists h1 l = Some (mkHdr (first (ys ++ zs) None) (lastp None (ys ++ zs)) (Z.of_nat (S (length (ys ++ zs))))) ->
    (forall k, k <> l -> lh_lists h1 k = lh_lists h k) ->
    dseg (lh_items h1) None (ys ++ zs) None ->
    (forall k, ~ In k (ids_of (ys ++ zs)) -> lh_items h1 k = lh_items h k) ->
    lh_next h1 = lh_next h -> lh_itemcount h1 = lh_itemcount h -> lh_headcount h1 = lh_headcount h ->
    lh_junk h1 = lh_junk h ->
    exists h', (do h2 <- listitem_free h1 (Some i);
                do hd <- get_list h2 l;
                do c <- chk_int (l_count hd - 1); put_list h2 l (w_count c)) = Ok h' /\
             LInv h' ids (upd g l (ys ++ zs)) /\
             lh_next h' = lh_next h /\ lh_junk h' = lh_junk h).
  { intros h1 EL1 FL1 SG1 FI1 NX1 IC1 HC1 JK1.
    assert (Nix : ~ In i (ids_of (ys ++ zs))) by (rewrite ids_of_app, in_app_iff; exact Ni).
    unfold listitem_free. cbn [get_item]. rewrite (FI1 i Nix), Ei. heapcbn.
    rewrite chk_int_ok by (unfold INT_MIN in *; lia). heapcbn.
    unfold get_list. heapcbn. rewrite EL1. heapcbn.
    rewrite chk_int_ok by (unfold INT_MIN, INT_MAX in *; lia). heapcbn.
    unfold put_list. heapcbn. rewrite EL1. heapcbn.
    eexists. split; [reflexivity|]. split; [|split; assumption].
    eapply linv_update; eauto; heapcbn.
    + rewrite upd_same. unfold w_count, w_tail, w_head. heapcbn. f_equal. f_equal. lia.
    + intros k Hk. rewrite upd_other by auto. auto.
    + eapply dseg_frame; [|exact SG1]. intros k Hk. apply upd_other. intros ->; auto.
    + rewrite ids_of_app. exact NDr.
    + intros k Hk Hk'. rewrite upd_other; [auto|]. intros ->. apply Hk. rewrite E, ids_of_app.
      apply in_or_app. simpl; auto.
    + intros k Hk Hk'. rewrite E, ids_of_app, in_app_iff in Hk. simpl in Hk.
      rewrite ids_of_app, in_app_iff in Hk'.
      destruct Hk as [Hk|[<-|Hk]]; [tauto| apply upd_same |tauto].
    + intros k Hk. left. rewrite E. rewrite ids_of_app, in_app_iff in *. simpl. tauto.
    + lia.
    + rewrite E, LEN. lia. }
  destruct (seq_snoc ys) as [Ey|(ys' & t & dt & Ey)].
  - (* item is the head *)
    subst ys. cbn [first lastp app] in *.
    unfold put_list at 1. rewrite EL. heapcbn.
    unfold get_list at 1. heapcbn. rewrite upd_same. heapcbn. rewrite TL.
    cbn [get_item lh_items]. rewrite Ei. heapcbn.
    destruct zs as [|[a b] r].
    + unfold put_list at 1. heapcbn. rewrite upd_same. heapcbn.
      apply DONE; heapcbn; auto.
      * rewrite upd_same. reflexivity.
      * intros k Hk. rewrite !upd_other by auto. reflexivity.
    + cbn [first]. heapcbn. destruct SZ as [Ea SZ].
      rewrite Ea. heapcbn.
      apply DONE; heapcbn; auto.
      * rewrite upd_same. reflexivity.
      * intros k Hk. rewrite !upd_other by auto. reflexivity.
      * simpl. rewrite upd_same. split; auto. eapply dseg_frame; [|exact SZ].
        intros k Hk. apply upd_other. intros ->. inversion NDr; auto.
      * intros k Hk. apply upd_other. intros ->. apply Hk. simpl; auto.
  - (* item has predecessor t *)
    assert (Ey0 : match ys with [] => true | _ => false end = false) by (subst ys; destruct ys'; reflexivity).
    rewrite Ey0.
    assert (LY : lastp None ys = Some t) by (subst ys; rewrite lastp_app; reflexivity).
    rewrite LY in *.
    assert (Nty : ~ In t (ids_of ys') /\ NoDup (ids_of ys')).
    { apply (@NoDup_snoc ys' t dt). rewrite <- Ey. apply NoDup_app_l in NDr. exact NDr. }
    destruct Nty as [Nt NDy].
    assert (Et : lh_items h t = Some (mkItem dt (lastp None ys') (Some i))).
    { rewrite Ey in SY. apply dseg_app in SY. destruct SY as [_ [E' _]]. exact E'. }
    assert (Hti : t <> i).
    { intros ->. apply Ni. left. rewrite Ey, ids_of_app. apply in_or_app; simpl; auto. }
    assert (Htz : ~ In t (ids_of zs)).
    { intros Hi. subst ys. rewrite ids_of_app, <- app_assoc in NDr. simpl in NDr.
      apply NoDup_remove_2 in NDr. apply NDr. apply in_or_app; auto. }
    cbn [put_item]. rewrite Et. heapcbn. unfold get_list at 1. heapcbn. rewrite EL. heapcbn. rewrite TL.
    cbn [get_item lh_items]. rewrite upd_other by auto. rewrite Ei. heapcbn.
    assert (FST : forall n, first ys n = first ys None).
    { intros n. rewrite Ey. destruct ys' as [|[a b] r']; reflexivity. }
    destruct zs as [|[a b] r].
    + unfold put_list at 1. heapcbn. rewrite EL. heapcbn. cbn [first] in *.
      apply DONE; heapcbn; auto.
      * rewrite upd_same. rewrite app_nil_r. cbn [lastp]. rewrite LY, (FST (Some i)). reflexivity.
      * intros k Hk. rewrite !upd_other by auto. reflexivity.
      * rewrite app_nil_r. rewrite Ey. apply dseg_set_next with (n := Some i); auto.
        rewrite <- Ey. exact SY.
      * intros k Hk. apply upd_other. intros ->. apply Hk. rewrite app_nil_r, Ey, ids_of_app.
        apply in_or_app; simpl; auto.
    + cbn [first]. heapcbn. destruct SZ as [Ea SZ].
      assert (Hat : a <> t) by (intros ->; apply Htz; simpl; auto).
      rewrite upd_other by auto. rewrite Ea. heapcbn.
      assert (Nay : ~ In a (ids_of ys)).
      { intros Hi. simpl in NDr. apply NoDup_remove_2 in NDr. apply NDr. apply in_or_app; auto. }
      apply DONE; heapcbn; auto.
      * rewrite EL. rewrite first_app, lastp_app, LY, (FST (Some i)), (FST (first _ _)). reflexivity.
      * apply dseg_app. cbn [first]. rewrite LY. split.
        -- eapply dseg_frame with (f := upd (lh_items h) t (Some (mkItem dt (lastp None ys') (Some a)))).
           { intros k Hk. apply upd_other. intros ->; auto. }
           rewrite Ey. apply dseg_set_next with (n := Some i); auto. rewrite <- Ey; exact SY.
        -- simpl. rewrite upd_same. split; auto.
           eapply dseg_frame; [|exact SZ]. intros k Hk. rewrite !upd_other; auto.
           ++ intros ->. apply Htz. simpl; auto.
           ++ intros ->. simpl in NDr. apply NoDup_app_r in NDr. inversion NDr; auto.
      * intros k Hk. rewrite !upd_other; auto; intros ->; apply Hk; rewrite ids_of_app; apply in_or_app.
        -- left. rewrite Ey, ids_of_app. apply in_or_app; simpl; auto.
        -- right. simpl; auto.
Qed.

(** *** searching *)
Fixpoint seq_find (f : D -> bool) (xs : seq) : option Z :=
  match xs with [] => None | (i, d) :: r => if f d then Some i else seq_find f r end.

Lemma search_loop_ok {h func} {f : D -> bool} {n} : forall xs fuel p,
  dseg (lh_items h) p xs n -> n = None ->
  (length xs < fuel)%nat ->
  (forall i d, In (i, d) xs -> func d = Ok (f d)) ->
  search_loop fuel func (first xs n) h = Ok (seq_find f xs).
Proof.
  induction xs as [|[i d] r IH]; intros fuel p SG -> Hf Hfun.
  - destruct fuel; [simpl in Hf; lia|]. reflexivity.
  - destruct fuel as [|fuel]; [simpl in Hf; lia|].
    destruct SG as [E SG]. cbn [first search_loop get_item]. rewrite E. heapcbn.
    rewrite (Hfun i d) by (simpl; auto). cbn [bind seq_find].
    destruct (f d); [reflexivity|].
    eapply IH; eauto; [simpl in Hf; lia|].
    intros j e Hj. eapply Hfun. simpl; right; eauto.
Qed.

Lemma list_search_func_ok {h ids g l} func f : LInv h ids g -> In l ids ->
  (forall i d, In (i, d) (g l) -> func d = Ok (f d)) ->
  list_search_func l func h = Ok (seq_find f (g l)).
Proof.
  intros I Hl Hfun. unfold list_search_func. rewrite (get_list_ok I Hl). heapcbn.
  eapply search_loop_ok; eauto; [apply (li_seg I Hl)|].
  apply (fuel_enough I Hl).
Qed.

Lemma list_search_ok (deq : D -> D -> bool) {h ids g l} d : LInv h ids g -> In l ids ->
  list_search deq l d h = Ok (seq_find (fun x => deq x d) (g l)).
Proof.
  intros I Hl. unfold list_search. rewrite (get_list_ok I Hl). heapcbn.
  eapply search_loop_ok; eauto; [apply (li_seg I Hl)|].
  apply (fuel_enough I Hl).
Qed.

(** The first matching element and what is around it. *)
Lemma seq_find_split {f} : forall {xs i}, seq_find f xs = Some i ->
  exists ys d zs, xs = ys ++ (i, d) :: zs /\ f d = true /\ forall j e, In (j, e) ys -> f e = false.
Proof.
  induction xs as [|[j e] r IH]; simpl; intros i H; [discriminate|].
  destruct (f e) eqn:F.
  - inversion H; subst. exists [], e, r. repeat split; auto. simpl; tauto.
  - destruct (IH i H) as (ys & d & zs & -> & Fd & Hy).
    exists ((j, e) :: ys), d, zs. repeat split; auto.
    intros j' e' [E|Hin]; [inversion E; subst; auto | eauto].
Qed.

Lemma seq_find_none f : forall xs, seq_find f xs = None -> forall i d, In (i, d) xs -> f d = false.
Proof.
  induction xs as [|[j e] r IH]; simpl; intros H i d Hin; [tauto|].
  destruct (f e) eqn:F; [discriminate|].
  destruct Hin as [E|Hin]; [inversion E; subst; auto| eauto].
Qed.

Fixpoint seq_del_first (f : D -> bool) (xs : seq) : seq :=
  match xs with [] => [] | (i, d) :: r => if f d then r else (i, d) :: seq_del_first f r end.

Lemma seq_del_first_split f ys i d zs : (forall j e, In (j, e) ys -> f e = false) -> f d = true ->
  seq_del_first f (ys ++ (i, d) :: zs) = ys ++ zs.
Proof.
  induction ys as [|[j e] r IH]; simpl; intros H F.
  - rewrite F. reflexivity.
  - rewrite (H j e) by auto. rewrite IH; auto. intros; eapply H; eauto.
Qed.

(** *** AP_list_delete *)
Lemma list_delete_ok (deq : D -> D -> bool) {h ids g l} d : LInv h ids g -> In l ids -> lh_itemcount h <= INT_MAX ->
  exists h', list_delete deq l d h = Ok ((match seq_find (fun x => deq x d) (g l) with Some _ => 1 | None => 0 end), h') /\
             LInv h' ids (upd g l (seq_del_first (fun x => deq x d) (g l))) /\
             lh_next h' = lh_next h.
Proof.
  intros I Hl Hc. unfold list_delete. rewrite (list_search_ok deq d I Hl). cbn [bind].
  destruct (seq_find _ (g l)) as [i|] eqn:F.
  - destruct (seq_find_split F) as (ys & e & zs & E & Fe & Hy).
    destruct (list_delete_item_ok I Hl Hc E) as (h' & E' & I' & NX & _).
    rewrite E'. cbn [bind]. exists h'. split; [reflexivity|]. split; auto.
    rewrite E. rewrite seq_del_first_split; auto.
  - exists h. split; [reflexivity|]. split; auto.
    eapply linv_ext; eauto. intros k Hk. unfold upd. destruct (Z.eqb_spec k l) as [->|]; auto.
    clear - F. induction (g l) as [|[j e] r IH]; simpl in *; auto.
    destruct (deq e d); [discriminate|]. rewrite IH; auto.
Qed.

(** *** observers *)
Lemma list_size_ok {h ids g l} : LInv h ids g -> In l ids -> list_size l h = Ok (Z.of_nat (length (g l))).
Proof. intros I Hl. unfold list_size. rewrite (get_list_ok I Hl). reflexivity. Qed.

Lemma list_head_item_ok {h ids g l} : LInv h ids g -> In l ids -> list_head_item l h = Ok (first (g l) None).
Proof. intros I Hl. unfold list_head_item. rewrite (get_list_ok I Hl). reflexivity. Qed.

Lemma list_head_ok {h ids g l} : LInv h ids g -> In l ids ->
  list_head l h = Ok (match g l with [] => None | (_, d) :: _ => Some d end).
Proof.
  intros I Hl. unfold list_head. rewrite (get_list_ok I Hl). heapcbn.
  pose proof (li_seg I Hl) as SG. destruct (g l) as [|[i d] r]; [reflexivity|].
  destruct SG as [E _]. cbn [first get_item]. rewrite E. reflexivity.
Qed.

Lemma list_tail_ok {h ids g l} : LInv h ids g -> In l ids ->
  list_tail l h = Ok (match rev (g l) with [] => None | (_, d) :: _ => Some d end).
Proof.
  intros I Hl. unfold list_tail. rewrite (get_list_ok I Hl). heapcbn.
  pose proof (li_seg I Hl) as SG. destruct (seq_snoc (g l)) as [->|(ys & t & dt & E)]; [reflexivity|].
  rewrite E in *. rewrite lastp_app, rev_app_distr. cbn [lastp rev app get_item].
  apply dseg_app in SG. destruct SG as [_ [E' _]]. rewrite E'. reflexivity.
Qed.

(** AP_list_next with the cursor before [ys] and after [i]. *)
Lemma list_next_ok {h ids g l} ys i d zs : LInv h ids g -> In l ids -> g l = ys ++ (i, d) :: zs ->
  list_next l (Some i) h = Ok (match zs with [] => None | (j, e) :: _ => Some (e, Some j) end).
Proof.
  intros I Hl E. unfold list_next. pose proof (li_seg I Hl) as SG. rewrite E in SG.
  apply dseg_app in SG. destruct SG as [_ [Ei SZ]]. cbn [get_item]. rewrite Ei. heapcbn.
  destruct zs as [|[j e] r]; [reflexivity|]. destruct SZ as [Ej _]. cbn [first get_item].
  rewrite Ej. reflexivity.
Qed.

Lemma list_next_first_ok {h ids g l} : LInv h ids g -> In l ids ->
  list_next l None h = Ok (match g l with [] => None | (j, e) :: _ => Some (e, Some j) end).
Proof.
  intros I Hl. unfold list_next. rewrite (get_list_ok I Hl). heapcbn.
  pose proof (li_seg I Hl) as SG. destruct (g l) as [|[j e] r]; [reflexivity|].
  destruct SG as [Ej _]. cbn [first get_item]. rewrite Ej. reflexivity.
Qed.

Lemma traverse_loop_ok {h ids g l} : LInv h ids g -> In l ids ->
  forall zs ys fuel t, g l = ys ++ zs -> t = lastp None ys -> (length zs < fuel)%nat ->
  traverse_loop fuel l t h = Ok (map snd zs).
Proof.
  intros I Hl. induction zs as [|[j e] r IH]; intros ys fuel t E -> Hf.
  - destruct fuel as [|fuel]; [simpl in Hf; lia|]. cbn [traverse_loop].
    destruct (seq_snoc ys) as [->|(ys' & i & d & ->)].
    + cbn [lastp]. rewrite (list_next_first_ok I Hl). rewrite E. reflexivity.
    + rewrite lastp_app. cbn [lastp]. rewrite (list_next_ok ys' i d [] I Hl).
      * reflexivity.
      * rewrite E, <- app_assoc. reflexivity.
  - destruct fuel as [|fuel]; [simpl in Hf; lia|]. cbn [traverse_loop].
    assert (NX : list_next l (lastp None ys) h = Ok (Some (e, Some j))).
    { destruct (seq_snoc ys) as [->|(ys' & i & d & ->)].
      - cbn [lastp]. rewrite (list_next_first_ok I Hl). rewrite E. reflexivity.
      - rewrite lastp_app. cbn [lastp]. rewrite (list_next_ok ys' i d ((j, e) :: r) I Hl).
        + reflexivity.
        + rewrite E, <- app_assoc. reflexivity. }
    rewrite NX. cbn [bind].
    rewrite (IH (ys ++ [(j, e)]) fuel); [reflexivity| | |].
    + rewrite E, <- app_assoc. reflexivity.
    + rewrite lastp_app. reflexivity.
    + simpl in Hf; lia.
Qed.

Lemma list_traverse_ok {h ids g l} : LInv h ids g -> In l ids -> list_traverse l h = Ok (map snd (g l)).
Proof.
  intros I Hl. unfold list_traverse. apply (traverse_loop_ok I Hl (g l) []); auto.
  apply (fuel_enough I Hl).
Qed.

Lemma rev_loop_ok h : forall xs fuel n, dseg (lh_items h) None xs n -> (length xs < fuel)%nat ->
  rev_loop fuel (lastp None xs) h = Ok (rev (map snd xs)).
Proof.
  induction xs as [|[i d] ys IH] using rev_ind; intros fuel n SG Hf.
  - destruct fuel; [simpl in Hf; lia|]. reflexivity.
  - rewrite app_length in Hf. simpl in Hf.
    destruct fuel as [|fuel]; [simpl in Hf; lia|].
    rewrite lastp_app. cbn [lastp rev_loop]. apply dseg_app in SG. destruct SG as [S1 [E _]].
    cbn [get_item]. rewrite E. heapcbn. rewrite (IH fuel _ S1) by lia.
    cbn [bind]. rewrite map_app, rev_app_distr. reflexivity.
Qed.

Lemma list_rev_traverse_ok {h ids g l} : LInv h ids g -> In l ids ->
  list_rev_traverse l h = Ok (rev (map snd (g l))).
Proof.
  intros I Hl. unfold list_rev_traverse. rewrite (get_list_ok I Hl). heapcbn.
  eapply rev_loop_ok; [apply (li_seg I Hl)|apply (fuel_enough I Hl)].
Qed.

(** *** AP_list_apply *)
Fixpoint seq_sum (f : D -> Z) (xs : seq) : Z :=
  match xs with [] => 0 | (_, d) :: r => f d + seq_sum f r end.

(** all partial sums representable *)
Fixpoint sums_ok (f : D -> Z) (acc : Z) (xs : seq) : Prop :=
  match xs with [] => True | (_, d) :: r => INT_MIN <= acc + f d <= INT_MAX /\ sums_ok f (acc + f d) r end.

Lemma apply_loop_ok h func (f : D -> Z) : forall xs fuel p total,
  dseg (lh_items h) p xs None -> (length xs < fuel)%nat ->
  (forall i d, In (i, d) xs -> func d = Ok (f d)) ->
  sums_ok f total xs ->
  apply_loop fuel func (first xs None) total h = Ok (total + seq_sum f xs).
Proof.
  induction xs as [|[i d] r IH]; intros fuel p total SG Hf Hfun Hs.
  - destruct fuel; [simpl in Hf; lia|]. simpl. rewrite Z.add_0_r. reflexivity.
  - destruct fuel as [|fuel]; [simpl in Hf; lia|].
    destruct SG as [E SG]. destruct Hs as [H1 H2].
    cbn [first apply_loop get_item]. rewrite E. heapcbn.
    rewrite (Hfun i d) by (simpl; auto). cbn [bind]. rewrite chk_int_ok by lia. cbn [bind].
    rewrite (IH fuel (Some i)); auto.
    + cbn [seq_sum]. f_equal; lia.
    + simpl in Hf; lia.
    + intros j e Hj. eapply Hfun. right; eauto.
Qed.

Lemma list_apply_ok {h ids g l} func f : LInv h ids g -> In l ids ->
  (forall i d, In (i, d) (g l) -> func d = Ok (f d)) -> sums_ok f 0 (g l) ->
  list_apply l func h = Ok (seq_sum f (g l)).
Proof.
  intros I Hl Hf Hs. unfold list_apply. rewrite (get_list_ok I Hl). heapcbn.
  rewrite (apply_loop_ok h func f (g l) (lfuel h) None); auto.
  - apply (li_seg I Hl).
  - apply (fuel_enough I Hl).
Qed.

(** *** AP_list_free *)
Lemma list_free_loop_ok : forall xs fuel p count h,
  dseg (lh_items h) p xs None -> NoDup (ids_of xs) -> (length xs < fuel)%nat ->
  0 <= count -> Z.of_nat (length xs) <= lh_itemcount h -> lh_itemcount h <= INT_MAX ->
  count + Z.of_nat (length xs) <= INT_MAX ->
  exists h', list_free_loop fuel (first xs None) count h = Ok (count + Z.of_nat (length xs), h') /\
    lh_lists h' = lh_lists h /\ lh_next h' = lh_next h /\ lh_headcount h' = lh_headcount h /\
    lh_junk h' = lh_junk h /\
    lh_itemcount h' = lh_itemcount h - Z.of_nat (length xs) /\
    (forall i, In i (ids_of xs) -> lh_items h' i = None) /\
    (forall i, ~ In i (ids_of xs) -> lh_items h' i = lh_items h i).
Proof.
  induction xs as [|[i d] r IH]; intros fuel p count h SG ND Hf C0 IC ICM CM.
  - destruct fuel; [simpl in Hf; lia|]. exists h. simpl. rewrite Z.add_0_r.
    repeat split; auto; try lia; tauto.
  - destruct fuel as [|fuel]; [simpl in Hf; lia|]. destruct SG as [E SG].
    inversion ND as [|? ? Ni NDr]; subst. simpl length in *.
    cbn [first list_free_loop get_item]. rewrite E. heapcbn.
    unfold listitem_free. cbn [get_item]. rewrite E. heapcbn.
    rewrite chk_int_ok by (unfold INT_MIN in *; lia). heapcbn.
    rewrite chk_int_ok by (unfold INT_MIN in *; lia). heapcbn.
    match goal with |- context [list_free_loop fuel _ _ ?h1] => set (hh := h1) end.
    destruct (IH fuel (Some i) (count + 1) hh) as (h' & E' & A1 & A2 & A3 & A4 & A5 & A6 & A7);
      unfold hh in *; heapcbn; auto; try lia.
    { eapply dseg_frame; [|exact SG]. intros j Hj. apply upd_other. intros ->; auto. }
    exists h'. rewrite E'. cbn [lh_lists lh_next lh_headcount lh_itemcount set_itemcount set_items] in *.
    split; [f_equal; f_equal; lia|]. repeat split; auto; try lia.
    + simpl. intros j [<-|Hj]; [|auto].
      rewrite A7 by auto. heapcbn. apply upd_same.
    + simpl. intros j Hj. rewrite A7 by tauto. heapcbn. apply upd_other. intros ->. tauto.
Qed.

Lemma sumlen_remove ids g l : NoDup ids -> In l ids ->
  sumlen (remove_id l ids) g = sumlen ids g - Z.of_nat (length (g l)).
Proof.
  induction ids as [|a r IH]; simpl; intros ND H; [tauto|]. inversion ND; subst.
  destruct (Z.eqb_spec a l) as [->|Hne]; simpl.
  - rewrite remove_id_notin; auto. lia.
  - rewrite IH; auto; [lia|]. destruct H; congruence.
Qed.

Lemma list_free_ok {h ids g l} : LInv h ids g -> In l ids ->
  lh_itemcount h <= INT_MAX -> lh_headcount h <= INT_MAX ->
  exists h', list_free l h = Ok h' /\ LInv h' (remove_id l ids) g /\
             lh_next h' = lh_next h /\ lh_junk h' = lh_junk h.
Proof.
  intros I Hl HI HH. unfold list_free. rewrite (get_list_ok I Hl). heapcbn.
  pose proof (li_ic I) as IC. pose proof (sumlen_nonneg ids g) as SN.
  pose proof (sumlen_le g Hl) as SL.
  destruct (list_free_loop_ok (g l) (lfuel h) None 0 h)
    as (h1 & E & A1 & A2 & A3 & A4 & A5 & A6 & A7); auto; try lia.
  { apply (li_seg I Hl). } { apply (li_inodup I Hl). } { apply (fuel_enough I Hl). }
  rewrite E. cbn [bind]. unfold get_list. rewrite A1, (li_lists I Hl). heapcbn.
  rewrite Z.add_0_l, Z.eqb_refl. cbn [negb].
  pose proof (li_hc I) as HC.
  rewrite chk_int_ok by (unfold INT_MIN in *; lia). heapcbn.
  eexists. split; [reflexivity|]. split; [|split; heapcbn; auto].
  constructor; heapcbn.
  - apply NoDup_filter. apply (li_nodup I).
  - intros k Hk. apply in_remove_id in Hk. destruct Hk as [Hk Hne].
    rewrite upd_other by auto. apply (li_lists I Hk).
  - intros k Hk. destruct (Z.eq_dec k l) as [->|Hne]; [apply upd_same|].
    rewrite upd_other by auto. apply (li_dead I). intros H. apply Hk. apply in_remove_id; auto.
  - intros k Hk. apply in_remove_id in Hk. destruct Hk as [Hk Hne].
    eapply dseg_frame; [|apply (li_seg I Hk)]. intros i Hi. apply A7.
    apply (li_disj I Hk Hl Hne Hi).
  - intros k Hk. apply in_remove_id in Hk. apply (li_inodup I). tauto.
  - intros k k' i Hk Hk'. apply in_remove_id in Hk. apply in_remove_id in Hk'.
    apply (li_disj I); tauto.
  - intros i Hi. destruct (in_dec Z.eq_dec i (ids_of (g l))) as [Hx|Hx].
    + exfalso. apply Hi. apply A6; auto.
    + rewrite A7 in Hi by auto. destruct (li_live I Hi) as (k & Hk & Hik).
      exists k. split; auto. apply in_remove_id. split; auto. intros ->; auto.
  - intros i Hi. rewrite A2. destruct (in_dec Z.eq_dec i (ids_of (g l))) as [Hx|Hx].
    + exfalso. apply Hi. apply A6; auto.
    + rewrite A7 in Hi by auto. apply (li_ifresh I Hi).
  - intros k Hk. apply in_remove_id in Hk. rewrite A2. apply (li_lfresh I). tauto.
  - rewrite A5, IC, sumlen_remove; auto. apply (li_nodup I).
  - rewrite A3, HC, (remove_id_length (li_nodup I) Hl). lia.
  - rewrite A2. apply (li_next I).
Qed.

(** *** AP_list_duplicate *)
Fixpoint fresh_copy (n : Z) (xs : seq) : seq :=
  match xs with [] => [] | (_, d) :: r => (n, d) :: fresh_copy (n + 1) r end.

Lemma fresh_copy_ids : forall xs n i, In i (ids_of (fresh_copy n xs)) <-> n <= i < n + Z.of_nat (length xs).
Proof.
  induction xs as [|[j d] r IH]; intros n i; simpl fresh_copy; simpl length.
  - simpl. lia.
  - cbn [ids_of map fst In]. fold (ids_of (fresh_copy (n + 1) r)). rewrite IH. lia.
Qed.

Lemma fresh_copy_nodup : forall xs n, NoDup (ids_of (fresh_copy n xs)).
Proof.
  induction xs as [|[j d] r IH]; intros n; simpl; constructor; auto.
  rewrite fresh_copy_ids. lia.
Qed.

Lemma fresh_copy_length : forall xs n, length (fresh_copy n xs) = length xs.
Proof. induction xs as [|[j d] r IH]; intros; simpl; auto. Qed.

Lemma fresh_copy_data : forall xs n, map snd (fresh_copy n xs) = map snd xs.
Proof. induction xs as [|[j d] r IH]; intros; simpl; f_equal; auto. Qed.

Definition nl_hdr (h : lheap D) (nl : Z) (ys : seq) : Prop :=
  exists t c, lh_lists h nl = Some (mkHdr (first ys None) t c).

(** Loop invariant: [ys] already copied; the last copied cell's [next] is still junk. *)
Lemma dup_loop_ok nl n0 : forall zs ys fuel p h (h0 : lheap D) jn,
  dseg (lh_items h0) p zs None ->
  (forall i, i < n0 -> lh_items h i = lh_items h0 i) ->
  (forall i, In i (ids_of zs) -> i < n0) ->
  n0 <= lh_next h ->
  (length zs < fuel)%nat ->
  0 <= lh_itemcount h -> lh_itemcount h + Z.of_nat (length zs) <= INT_MAX ->
  nl_hdr h nl ys -> dseg (lh_items h) None ys jn -> NoDup (ids_of ys) ->
  (forall i, In i (ids_of ys) -> n0 <= i < lh_next h) ->
  exists h' jn', dup_loop fuel nl (first zs None) (lastp None ys) h =
               Ok (lastp None (ys ++ fresh_copy (lh_next h) zs), h') /\
    nl_hdr h' nl (ys ++ fresh_copy (lh_next h) zs) /\
    dseg (lh_items h') None (ys ++ fresh_copy (lh_next h) zs) jn' /\
    (forall k, k <> nl -> lh_lists h' k = lh_lists h k) /\
    (forall i, i < n0 -> lh_items h' i = lh_items h0 i) /\
    (forall i, n0 <= i -> ~ In i (ids_of (ys ++ fresh_copy (lh_next h) zs)) -> lh_items h' i = lh_items h i) /\
    lh_next h' = lh_next h + Z.of_nat (length zs) /\
    lh_itemcount h' = lh_itemcount h + Z.of_nat (length zs) /\
    lh_headcount h' = lh_headcount h /\ lh_junk h' = lh_junk h.
Proof.
  induction zs as [|[i d] r IH]; intros ys fuel p h h0 jn SG AG LT NN Hf IC0 IC NLH DY NDY RY.
  - destruct fuel; [simpl in Hf; lia|]. exists h, jn. simpl. rewrite app_nil_r, !Z.add_0_r.
    repeat split; auto.
  - destruct fuel as [|fuel]; [simpl in Hf; lia|]. destruct SG as [E SG].
    cbn [length] in *. cbn [first dup_loop]. unfold listitem_malloc.
    rewrite chk_int_ok by (unfold INT_MIN in *; lia). heapcbn.
    set (n := lh_next h) in *.
    assert (Hi : i < n0) by (apply LT; simpl; auto).
    rewrite upd_other by lia. rewrite AG, E by auto. heapcbn.
    rewrite upd_same. heapcbn. rewrite upd_same. heapcbn.
    assert (Hny : ~ In n (ids_of ys)) by (intros H; apply RY in H; lia).
    (* common continuation *)
    assert (STEP : forall h1,
      lh_next h1 = n + 1 -> lh_itemcount h1 = lh_itemcount h + 1 -> lh_headcount h1 = lh_headcount h ->
      lh_junk h1 = lh_junk h ->
      (forall k, k <> nl -> lh_lists h1 k = lh_lists h k) ->
      nl_hdr h1 nl (ys ++ [(n, d)]) ->
      (exists jn1, dseg (lh_items h1) None (ys ++ [(n, d)]) jn1) ->
      (forall j, ~ In j (ids_of (ys ++ [(n, d)])) -> lh_items h1 j = lh_items h j) ->
      exists h' jn',
        (do it <- get_item h1 (Some i); dup_loop fuel nl (it_next it) (Some n) h1) =
          Ok (lastp None (ys ++ fresh_copy n ((i, d) :: r)), h') /\
        nl_hdr h' nl (ys ++ fresh_copy n ((i, d) :: r)) /\
        dseg (lh_items h') None (ys ++ fresh_copy n ((i, d) :: r)) jn' /\
        (forall k, k <> nl -> lh_lists h' k = lh_lists h k) /\
        (forall j, j < n0 -> lh_items h' j = lh_items h0 j) /\
        (forall j, n0 <= j -> ~ In j (ids_of (ys ++ fresh_copy n ((i, d) :: r))) -> lh_items h' j = lh_items h j) /\
        lh_next h' = n + Z.of_nat (S (length r)) /\
        lh_itemcount h' = lh_itemcount h + Z.of_nat (S (length r)) /\
        lh_headcount h' = lh_headcount h /\ lh_junk h' = lh_junk h).
    { intros h1 NX1 IC1 HC1 JK1 FL1 NL1 [jn1 SG1] FI1.
      assert (AG1 : forall j, j < n0 -> lh_items h1 j = lh_items h0 j).
      { intros j Hj. rewrite FI1; [auto|]. rewrite ids_of_app, in_app_iff. simpl.
        intros [H|[<-|[]]]; [apply RY in H; lia|lia]. }
      cbn [get_item]. rewrite AG1, E by auto. heapcbn.
      destruct (IH (ys ++ [(n, d)]) fuel (Some i) h1 h0 jn1) as (h' & jn' & E' & B1 & B2 & B3 & B4 & B5 & B6 & B7 & B8 & B9); auto; try lia.
      - intros j Hj. apply LT. simpl; auto.
      - apply NoDup_ids_snoc; auto.
      - intros j Hj. rewrite ids_of_app, in_app_iff in Hj. destruct Hj as [Hj|[<-|[]]].
        + apply RY in Hj. lia.
        + simpl; lia.
      - rewrite lastp_app in E'. cbn [lastp] in E'. rewrite E'.
        assert (EQ : (ys ++ [(n, d)]) ++ fresh_copy (lh_next h1) r = ys ++ fresh_copy n ((i, d) :: r)).
        { rewrite NX1, <- app_assoc. reflexivity. }
        rewrite EQ in *. exists h', jn'. repeat split; auto; try lia.
        + intros k Hk. rewrite B3, FL1; auto.
        + intros j Hj Hj'. rewrite B5, FI1; auto.
          intros H. apply Hj'. rewrite ids_of_app, in_app_iff in *. simpl in *. tauto.
        + rewrite B9, JK1; auto. }
    destruct (seq_snoc ys) as [->|(ys' & t & dt & EY)].
    + cbn [lastp]. destruct NLH as (tt & cc & EL). unfold put_list. heapcbn. rewrite EL. heapcbn.
      match goal with |- context [dup_loop fuel nl _ _ ?hh] => apply (STEP hh) end; heapcbn; auto.
      * intros k Hk. apply upd_other; auto.
      * exists tt, cc. heapcbn. rewrite upd_same. reflexivity.
      * exists (it_next (lh_junk h n)). simpl. rewrite upd_same. auto.
      * intros j Hj. simpl in Hj. rewrite !upd_other; auto.
    + rewrite EY in *. rewrite lastp_app. cbn [lastp].
      destruct (NoDup_snoc NDY) as [Nt NDy].
      assert (Ht : t <> n).
      { intros ->. apply Hny. rewrite ids_of_app. apply in_or_app; simpl; auto. }
      assert (Et : lh_items h t = Some (mkItem dt (lastp None ys') jn)).
      { apply dseg_app in DY. destruct DY as [_ [E' _]]. exact E'. }
      heapcbn. rewrite !upd_other by auto. rewrite Et. heapcbn.
      match goal with |- context [dup_loop fuel nl _ _ ?hh] => apply (STEP hh) end; heapcbn; auto.
      * destruct NLH as (tt & cc & EL). exists tt, cc. heapcbn. rewrite EL.
        destruct ys' as [|[a b] r']; reflexivity.
      * exists (it_next (lh_junk h n)). apply dseg_app. rewrite lastp_app. cbn [first lastp dseg]. repeat split.
        -- apply dseg_set_next with (n := jn); auto.
           eapply dseg_frame; [|exact DY]. intros j Hj.
           assert (j <> n) by (intros ->; apply Hny; exact Hj).
           rewrite !upd_other by auto. reflexivity.
        -- rewrite upd_other by auto. rewrite upd_same. reflexivity.
      * intros j Hj. rewrite ids_of_app, in_app_iff, ids_of_app, in_app_iff in Hj. simpl in Hj.
        rewrite !upd_other; auto; intros ->; apply Hj; auto.
Qed.

Lemma list_duplicate_ok {h ids g l} : LInv h ids g -> In l ids ->
  lh_headcount h < INT_MAX -> lh_itemcount h + Z.of_nat (length (g l)) <= INT_MAX ->
  exists h', list_duplicate l h = Ok (lh_next h, h') /\ ~ In (lh_next h) ids /\
     LInv h' (lh_next h :: ids) (upd g (lh_next h) (fresh_copy (lh_next h + 1) (g l))) /\
     lh_next h' = lh_next h + 1 + Z.of_nat (length (g l)).
Proof.
  intros I Hl HH HI. unfold list_duplicate.
  destruct (list_new_ok I HH) as (h1 & E1 & Hn & I1 & NX1 & _). rewrite E1. cbn [bind].
  set (nl := lh_next h) in *.
  assert (Hl1 : In l (nl :: ids)) by (right; auto).
  assert (Hne : l <> nl) by (intros ->; auto).
  assert (Gl : upd g nl [] l = g l) by (apply upd_other; auto).
  pose proof (get_list_ok I1 Hl1) as GL. rewrite Gl in GL. rewrite GL. heapcbn.
  pose proof (li_ic I) as IC. pose proof (sumlen_nonneg ids g) as SN.
  assert (IC1 : lh_itemcount h1 = lh_itemcount h).
  { unfold list_new in E1. cbn [bump_next set_lists lh_headcount] in E1.
    apply bind_ok in E1. destruct E1 as (c & _ & E1). inversion E1. reflexivity. }
  pose proof (li_seg I1 Hl1) as SG1. rewrite Gl in SG1.
  destruct (@dup_loop_ok nl (lh_next h1) (g l) [] (lfuel h1) None h1 h1 None) as
    (h2 & jn & E2 & (tt & cc & B1) & B2 & B3 & B4 & B5 & B6 & B7 & B8 & B9); auto; try lia.
  { intros i Hi. assert (0 < i < lh_next h1); [|lia]. apply (li_ifresh I1). eapply dseg_in; eauto. }
  { pose proof (fuel_enough I1 Hl1) as F. rewrite Gl in F. exact F. }
  { exists None, 0. rewrite (li_lists I1 (or_introl eq_refl)). rewrite upd_same. reflexivity. }
  { exact Logic.I. }
  { constructor. }
  { intros i []. }
  cbn [lastp app] in *. rewrite E2. cbn [bind].
  set (xs := fresh_copy (lh_next h1) (g l)) in *.
  assert (XN : NoDup (ids_of xs)) by apply fresh_copy_nodup.
  assert (LX : length xs = length (g l)) by apply fresh_copy_length.
  assert (FIN : forall h3, lh_lists h3 = lh_lists h2 -> lh_next h3 = lh_next h2 ->
     lh_itemcount h3 = lh_itemcount h2 -> lh_headcount h3 = lh_headcount h2 ->
     dseg (lh_items h3) None xs None ->
     (forall i, ~ In i (ids_of xs) -> lh_items h3 i = lh_items h2 i) ->
     exists h', (do h <- put_list h3 nl (w_tail (lastp None xs));
                 do hd <- get_list h l;
                 do h <- put_list h nl (w_count (l_count hd)); Ok (nl, h)) = Ok (nl, h') /\
        LInv h' (nl :: ids) (upd g nl xs) /\ lh_next h' = lh_next h + 1 + Z.of_nat (length (g l))).
  { intros h3 L3 N3 I3 H3 S3 F3. unfold put_list at 1. rewrite L3, B1. heapcbn.
    unfold get_list. heapcbn. rewrite upd_other by auto. rewrite ?L3, B3 by auto.
    rewrite (li_lists I1 Hl1), Gl. heapcbn. unfold put_list. heapcbn. rewrite upd_same. heapcbn.
    eexists. split; [reflexivity|]. split; [|heapcbn; lia].
    eapply (@linv_ext _ _ (upd (upd g nl []) nl xs)).
    2:{ intros k Hk. unfold upd. destruct (k =? nl); reflexivity. }
    eapply linv_update; [exact I1|left; reflexivity|..]; heapcbn.
    - rewrite upd_same. rewrite LX. reflexivity.
    - intros k Hk. rewrite !upd_other by auto. rewrite ?L3, B3; auto.
    - exact S3.
    - exact XN.
    - intros i _ Hi. rewrite F3 by auto.
      destruct (Z_lt_le_dec i (lh_next h1)) as [Hlt|Hge]; [apply B4; auto|apply B5; auto].
    - rewrite upd_same. intros i [].
    - intros i Hi. right. unfold xs in Hi. apply fresh_copy_ids in Hi. rewrite N3, B6. lia.
    - rewrite N3, B6. lia.
    - rewrite upd_same, LX, I3, B7. simpl. lia.
    - rewrite H3, B8. reflexivity. }
  assert (XE : fresh_copy (nl + 1) (g l) = xs) by (unfold xs; rewrite NX1; reflexivity).
  rewrite XE.
  destruct (seq_snoc xs) as [EX|(ys & t & dt & EX)].
  - rewrite EX. cbn [lastp bind]. rewrite EX in FIN. destruct (FIN h2) as (h' & E' & I' & N'); auto.
    { exact Logic.I. }
    exists h'. cbn [lastp] in E'. auto.
  - assert (Et : lh_items h2 t = Some (mkItem dt (lastp None ys) jn)).
    { rewrite EX in B2. apply dseg_app in B2. destruct B2 as [_ [E' _]]. exact E'. }
    assert (LT : lastp None xs = Some t) by (rewrite EX, lastp_app; reflexivity).
    rewrite LT. cbn [put_item]. rewrite Et. cbn [bind]. rewrite LT in FIN.
    destruct (FIN (set_items h2 (upd (lh_items h2) t (Some (w_next None {| it_data := dt; it_prev := lastp None ys; it_next := jn |})))))
      as (h' & E' & I' & N'); heapcbn; auto.
    + rewrite EX. apply dseg_set_next with (n := jn).
      * rewrite EX in XN. apply NoDup_snoc in XN. tauto.
      * rewrite <- EX. exact B2.
    + intros i Hi. apply upd_other. intros ->. apply Hi. rewrite EX, ids_of_app. apply in_or_app; simpl; auto.
    + exists h'. auto.
Qed.

(** *** AP_listitem_verify *)
Lemma verify_ok {h ids g} : LInv h ids g -> (listitem_verify h = false <-> ids = []).
Proof.
  intros I. unfold listitem_verify. rewrite (li_ic I), (li_hc I).
  destruct ids as [|a r].
  - simpl. tauto.
  - split; [|discriminate]. cbn [length].
    destruct (Z.eqb_spec (Z.of_nat (S (length r))) 0); [lia|]. rewrite orb_true_r. discriminate.
Qed.

End ListProofs.

Arguments li_nodup {D h ids g} _.
Arguments li_ic {D h ids g} _.
Arguments li_hc {D h ids g} _.
Arguments li_next {D h ids g} _.
Arguments li_live {D h ids g} _ {i} _.
Arguments li_ifresh {D h ids g} _ {i} _.
Arguments li_lists {D h ids g} _ {l} _.
Arguments li_dead {D h ids g} _ {l} _.
Arguments li_seg {D h ids g} _ {l} _.
Arguments li_inodup {D h ids g} _ {l} _.
Arguments li_disj {D h ids g} _ {l l' i} _ _ _ _ _.
Arguments li_lfresh {D h ids g} _ {l} _.
