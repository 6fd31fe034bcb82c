(** Proofs about the order of sends and receives (C112). *)
From Coq Require Import Permutation Sorted.
From Verif Require Import Base HandleSpec HandleExact TypeModel TypeSpec CopyModel CopySpec CopyFinal SysModel CollModel SysCalls SysSpec SysLog SysReach ExchangeSpec PairSpec PairFacts MixSpec.

(** *** Places. *)
Lemma kindred_refl x : kindred x x = true.
Proof. unfold kindred. rewrite Z.eqb_refl. destruct (x_side x); reflexivity. Qed.
Lemma kindred_eq x y : kindred x y = true <-> x_comm x = x_comm y /\ x_side x = x_side y.
Proof. unfold kindred. rewrite andb_true_iff, Z.eqb_eq. destruct (x_side x), (x_side y); split; intros [A B]; split; auto; discriminate. Qed.
Lemma kindred_same x y : kindred x y = true -> forall z, kindred x z = kindred y z.
Proof. intros K z. apply kindred_eq in K. destruct K as [A B]. unfold kindred. rewrite A, B. reflexivity. Qed.
Lemma place_ext prog x y i : kindred x y = true -> place prog x i = place prog y i.
Proof. intros K. unfold place. f_equal. apply filter_ext. apply kindred_same, K. Qed.
Lemma nth_filter {A} (P : A -> bool) : forall l i x, nth_error l i = Some x -> P x = true -> nth_error (filter P l) (length (filter P (firstn i l))) = Some x.
Proof.
  induction l as [|y l IH]; intros [|i] x E Px; cbn [nth_error] in E; try discriminate.
  - injection E as ->. cbn [filter firstn length]. rewrite Px. reflexivity.
  - cbn [filter firstn]. destruct (P y); cbn [length nth_error]; apply IH; auto.
Qed.
Lemma filter_nth {A} (P : A -> bool) : forall l k x, nth_error (filter P l) k = Some x -> exists i, nth_error l i = Some x /\ length (filter P (firstn i l)) = k.
Proof.
  induction l as [|y l IH]; intros k x E; cbn [filter] in E; [destruct k; discriminate|].
  destruct (P y) eqn:Py.
  - destruct k as [|k]; cbn [nth_error] in E.
    + injection E as ->. exists O. split; reflexivity.
    + destruct (IH k x E) as (i & I & L). exists (S i). cbn [nth_error firstn filter]. rewrite Py. cbn [length]. split; congruence.
  - destruct (IH k x E) as (i & I & L). exists (S i). cbn [nth_error firstn filter]. rewrite Py. split; congruence.
Qed.
Lemma place_lt prog x i j : nth_error prog i = Some x -> (i < j)%nat -> (place prog x i < place prog x j)%nat.
Proof.
  unfold place. revert i j. induction prog as [|y l IH]; intros [|i] [|j] E L; cbn [nth_error] in E; try discriminate; try lia.
  - injection E as ->. cbn [firstn filter]. rewrite kindred_refl. cbn [length]. lia.
  - cbn [firstn filter]. specialize (IH i j E ltac:(lia)). destruct (kindred x y); cbn [length]; lia.
Qed.
Lemma same_exists prog prog' i x : same_lines prog prog' -> nth_error prog i = Some x -> exists i', same_op prog prog' i i'.
Proof.
  intros SL X. pose proof (nth_filter (kindred x) prog i x X (kindred_refl x)) as E. rewrite SL in E. destruct (filter_nth _ _ _ _ E) as (i' & I & L).
  exists i', x. split; [exact X|]. split; [exact I|]. unfold place. congruence.
Qed.
Lemma same_sym prog prog' i i' : same_op prog prog' i i' -> same_op prog' prog i' i.
Proof. intros (x & X & Y & E). exists x. auto. Qed.
Lemma lines_sym prog prog' : same_lines prog prog' -> same_lines prog' prog.
Proof. intros S x. symmetry. apply S. Qed.
(** Two of a kind keep their order. *)
Lemma same_order prog prog' i i' j j' x y : same_op prog prog' i i' -> same_op prog prog' j j' -> nth_error prog i = Some x -> nth_error prog j = Some y ->
  kindred x y = true -> (i' < j')%nat -> (i < j)%nat.
Proof.
  intros (x1 & X & X' & E) (y1 & Y & Y' & F) X1 Y1 K L. assert (x1 = x) by congruence. assert (y1 = y) by congruence. subst x1 y1.
  pose proof (place_lt prog' x i' j' X' L) as P. rewrite <- E in P. rewrite (place_ext prog' x y j' K), <- F, <- (place_ext prog x y j K) in P.
  destruct (lt_eq_lt_dec i j) as [[G|G]|G]; [exact G|subst j; lia|].
  pose proof (place_lt prog y j i Y G) as Q. rewrite <- !(place_ext prog x y _ K) in Q. lia.
Qed.
Lemma same_one prog prog' i j i' : same_op prog prog' i i' -> same_op prog prog' j i' -> i = j.
Proof.
  intros (x & X & X' & E) (y & Y & Y' & F). assert (y = x) by congruence. subst y.
  destruct (lt_eq_lt_dec i j) as [[G|G]|G]; [|exact G|]; [pose proof (place_lt prog x i j X G)|pose proof (place_lt prog x j i Y G)]; lia.
Qed.
Lemma fit_kin x y y1 : fit x y = true -> fit x y1 = true -> kindred y1 y = true.
Proof.
  intros F G. apply kindred_eq. split; [rewrite (fit_comm _ _ F), (fit_comm _ _ G); reflexivity|].
  rewrite (fit_sides _ _ F), (fit_sides _ _ G). reflexivity.
Qed.

(** *** The pairing is stable. *)
Lemma obeys_stable prog M : obeys prog M -> stable prog M.
Proof.
  intros O. pose proof (ob_once _ _ O) as N. constructor.
  - split; [exact (nodup_l _ _ N)|exact (nodup_r _ _ N)].
  - intros i j I. destruct (ob_fit _ _ O i j I) as (x & y & X & Y & CY & SX & SY & T). exists x, y. do 4 (split; [assumption|]).
    unfold fit. rewrite SX, SY, CY, Z.eqb_refl. apply orb_true_iff. rewrite !Z.eqb_eq. exact T.
  - intros i j x y X Y SX SY F.
    assert (GI : forall p, together M i p -> In (i, p) M).
    { intros p [I|I]; [exact I|]. destruct (ob_fit _ _ O p i I) as (_ & u & _ & U & _ & _ & SU & _). congruence. }
    assert (GJ : forall p, together M j p -> In (p, j) M).
    { intros p [I|I]; [|exact I]. destruct (ob_fit _ _ O j p I) as (u & _ & U & _ & _ & SU & _). congruence. }
    assert (A : forall p, together M i p -> (j < p)%nat -> exists q, together M j q /\ (Nat.max j q < Nat.max p i)%nat).
    { intros p T L. apply (ob_over _ _ O p i j y x); auto; [apply tog_sym; exact T|rewrite fit_sym; exact F]. }
    assert (B : forall q, together M j q -> (i < q)%nat -> exists p, together M i p /\ (Nat.max i p < Nat.max q j)%nat).
    { intros q T L. apply (ob_over _ _ O q j i x y); auto. apply tog_sym; exact T. }
    destruct (classic_tog M i) as [(p & P)|Ni]; destruct (classic_tog M j) as [(q & Q)|Nj].
    + destruct (lt_eq_lt_dec p j) as [[L|E]|L]; [right; left; exists p; auto|subst p; left; auto|].
      destruct (lt_eq_lt_dec q i) as [[K|E]|K]; [right; right; exists q; auto|subst q; left; auto|].
      exfalso. destruct (A p P L) as (q' & Q' & L1). destruct (B q Q K) as (p' & P' & L2).
      assert (q' = q) by exact (tog_one prog M O _ _ _ Q' Q). assert (p' = p) by exact (tog_one prog M O _ _ _ P' P). subst. lia.
    + destruct (lt_eq_lt_dec p j) as [[L|E]|L]; [right; left; exists p; auto|subst p; left; auto|].
      exfalso. destruct (A p P L) as (q' & Q' & _). exact (Nj q' Q').
    + destruct (lt_eq_lt_dec q i) as [[K|E]|K]; [right; right; exists q; auto|subst q; left; auto|].
      exfalso. destruct (B q Q K) as (p' & P' & _). exact (Ni p' P').
    + exfalso. rewrite (ob_rest _ _ O i j x y X Y Ni Nj) in F. discriminate.
Qed.

(** *** Two stable pairings are the same, in any two programs with the same lines. *)
Lemma stable_same prog prog' M M' : same_lines prog prog' -> stable prog M -> stable prog' M' ->
  forall n i j i' j', (i + j <= n)%nat -> same_op prog prog' i i' -> same_op prog prog' j j' -> In (i, j) M -> In (i', j') M'.
Proof.
  intros SL S S'. induction n as [n IH] using lt_wf_ind. intros i j i' j' Le Oi Oj I.
  destruct (sb_fit _ _ S i j I) as (x & y & X & Y & SX & SY & F).
  pose proof Oi as (x1 & X1 & X' & _). assert (x1 = x) by congruence. subst x1. clear X1.
  pose proof Oj as (y1 & Y1 & Y' & _). assert (y1 = y) by congruence. subst y1. clear Y1.
  destruct (sb_once _ _ S) as [N1 N2]. destruct (sb_once _ _ S') as [N1' N2'].
  destruct (sb_rest _ _ S' i' j' x y X' Y' SX SY F) as [D|[(j1' & L & D)|(i1' & L & D)]]; [exact D| |]; exfalso.
  - destruct (sb_fit _ _ S' i' j1' D) as (u & v & U & V & _ & SV & G). assert (u = x) by congruence. subst u.
    destruct (same_exists prog' prog j1' v (lines_sym _ _ SL) V) as (j1 & O1). apply same_sym in O1.
    pose proof O1 as (v1 & V1 & V' & _). assert (v1 = v) by congruence. subst v1.
    assert (Lj : (j1 < j)%nat) by exact (same_order prog prog' _ _ _ _ v y O1 Oj V1 Y (fit_kin _ _ _ F G) L).
    destruct (sb_rest _ _ S i j1 x v X V1 SX SV G) as [E|[(j2 & L2 & E)|(i1 & L1 & E)]].
    + pose proof (fst_once _ _ _ _ N1 I E). lia.
    + pose proof (fst_once _ _ _ _ N1 I E). lia.
    + destruct (sb_fit _ _ S i1 j1 E) as (w & _ & W & _). destruct (same_exists prog prog' i1 w SL W) as (i1' & O2).
      pose proof (IH (i1 + j1)%nat ltac:(lia) i1 j1 i1' j1' (le_n _) O2 O1 E) as Q. assert (i1' = i') by exact (snd_once _ _ _ _ N2' Q D). subst i1'.
      pose proof (same_one _ _ _ _ _ Oi O2). lia.
  - destruct (sb_fit _ _ S' i1' j' D) as (u & v & U & V & SU & _ & G). assert (v = y) by congruence. subst v.
    destruct (same_exists prog' prog i1' u (lines_sym _ _ SL) U) as (i1 & O1). apply same_sym in O1.
    pose proof O1 as (u1 & U1 & U' & _). assert (u1 = u) by congruence. subst u1.
    rewrite fit_sym in F, G.
    assert (Li : (i1 < i)%nat) by exact (same_order prog prog' _ _ _ _ u x O1 Oi U1 X (fit_kin _ _ _ F G) L).
    rewrite fit_sym in G. destruct (sb_rest _ _ S i1 j u y U1 Y SU SY G) as [E|[(j1 & L1 & E)|(i2 & L2 & E)]].
    + pose proof (snd_once _ _ _ _ N2 I E). lia.
    + destruct (sb_fit _ _ S i1 j1 E) as (_ & w & _ & W & _). destruct (same_exists prog prog' j1 w SL W) as (j1' & O2).
      pose proof (IH (i1 + j1)%nat ltac:(lia) i1 j1 i1' j1' (le_n _) O1 O2 E) as Q. assert (j1' = j') by exact (fst_once _ _ _ _ N1' Q D). subst j1'.
      pose proof (same_one _ _ _ _ _ Oj O2). lia.
    + pose proof (snd_once _ _ _ _ N2 I E). lia.
Qed.
Theorem C112_stable_lemma prog : stable prog (couples prog).
Proof. apply obeys_stable. apply C104_rule_lemma. Qed.
Theorem C112_pairs_lemma prog prog' : same_lines prog prog' -> forall i j i' j', same_op prog prog' i i' -> same_op prog prog' j j' ->
  (In (i, j) (couples prog) <-> In (i', j') (couples prog')).
Proof.
  intros SL i j i' j' Oi Oj. pose proof (C112_stable_lemma prog) as S. pose proof (C112_stable_lemma prog') as S'. split; intros I.
  - eapply (stable_same prog prog' _ _ SL S S'); eauto.
  - eapply (stable_same prog' prog _ _ (lines_sym _ _ SL) S' S); eauto using same_sym.
Qed.
Theorem C112_only_lemma prog M : stable prog M -> forall i j, In (i, j) M <-> In (i, j) (couples prog).
Proof.
  intros S. pose proof (C112_stable_lemma prog) as S'. intros i j.
  assert (G : forall M', stable prog M' -> In (i, j) M' -> same_op prog prog i i /\ same_op prog prog j j).
  { intros M' SM I. destruct (sb_fit _ _ SM i j I) as (x & y & X & Y & _). split; [exists x|exists y]; auto. }
  split; intros I; [destruct (G _ S I)|destruct (G _ S' I)]; [eapply (stable_same prog prog M (couples prog))|eapply (stable_same prog prog (couples prog) M)]; eauto; intros x; reflexivity.
Qed.
Lemma left_alone prog i x : nth_error prog i = Some x -> (In i (left_over prog) <-> forall j, ~ together (couples prog) i j).
Proof.
  intros X. pose proof (rule_final prog) as H. split.
  - intros I j. exact (ri_alone _ _ _ _ i j H I).
  - intros N. destruct (proj1 (ri_in _ _ _ _ i H)) as [I|(j & T)]; [apply nth_error_Some; congruence|exact I|destruct (N j T)].
Qed.
Lemma left_one prog prog' i i' : same_lines prog prog' -> same_op prog prog' i i' -> In i (left_over prog) -> In i' (left_over prog').
Proof.
  intros SL O. pose proof O as (x & X & X' & _). rewrite (left_alone _ _ _ X), (left_alone _ _ _ X'). intros N j' T.
  destruct (tog_fit prog' _ (proj1 (C104_rule_lemma prog')) _ _ T) as (_ & y & _ & Y & _).
  destruct (same_exists prog' prog j' y (lines_sym _ _ SL) Y) as (j & Oj). apply same_sym in Oj.
  apply (N j). destruct T as [T|T]; [left|right]; eapply C112_pairs_lemma; eauto.
Qed.
Theorem C112_left_lemma prog prog' : same_lines prog prog' -> forall i i', same_op prog prog' i i' -> (In i (left_over prog) <-> In i' (left_over prog')).
Proof. intros SL i i' O. split; [apply (left_one _ _ _ _ SL O)|apply (left_one _ _ _ _ (lines_sym _ _ SL) (same_sym _ _ _ _ O))]. Qed.

(** *** What waits, in order. *)
Lemma sorted_filter (P : nat -> bool) l : StronglySorted lt l -> StronglySorted lt (filter P l).
Proof.
  induction 1 as [|x l S IH H]; [constructor|]. cbn [filter]. destruct (P x); [|exact IH]. constructor; [exact IH|].
  rewrite Forall_forall in *. intros y I. apply filter_In in I. apply H, I.
Qed.
Lemma sorted_same prog prog' z : forall L L', StronglySorted lt L -> StronglySorted lt L' ->
  (forall i, In i L -> exists x, nth_error prog i = Some x /\ kindred z x = true) ->
  (forall i, In i L -> exists i', In i' L' /\ same_op prog prog' i i') -> (forall i', In i' L' -> exists i, In i L /\ same_op prog prog' i i') ->
  Forall2 (same_op prog prog') L L'.
Proof.
  induction L as [|i L IH]; intros L' S S' K A B.
  - destruct L' as [|i' L']; [constructor|]. destruct (B i' (or_introl eq_refl)) as (i & [] & _).
  - destruct L' as [|h' L']; [destruct (A i (or_introl eq_refl)) as (i' & [] & _)|].
    apply StronglySorted_inv in S, S'. destruct S as [S H]. destruct S' as [S' H']. rewrite Forall_forall in H, H'.
    assert (OR : forall p q p' q', In p (i :: L) -> In q (i :: L) -> same_op prog prog' p p' -> same_op prog prog' q q' -> (p' < q')%nat -> (p < q)%nat).
    { intros p q p' q' Ip Iq Op Oq Lt. destruct (K p Ip) as (x & X & Kx). destruct (K q Iq) as (y & Y & Ky).
      refine (same_order prog prog' p p' q q' x y Op Oq X Y _ Lt). rewrite <- (kindred_same z x Kx). exact Ky. }
    assert (O : same_op prog prog' i h').
    { destruct (A i (or_introl eq_refl)) as (i' & [<-|I'] & Oi); [exact Oi|]. destruct (B h' (or_introl eq_refl)) as (h & Ih & Oh).
      pose proof (OR h i h' i' Ih (or_introl eq_refl) Oh Oi (H' i' I')) as Lt. destruct Ih as [<-|Ih]; [lia|]. pose proof (H h Ih). lia. }
    constructor; [exact O|]. apply IH; auto.
    + intros p Ip. apply K. right. exact Ip.
    + intros p Ip. destruct (A p (or_intror Ip)) as (p' & [<-|I'] & Op); [|eauto]. pose proof (same_one _ _ _ _ _ O Op). subst p. pose proof (H i Ip). lia.
    + intros p' Ip. destruct (B p' (or_intror Ip)) as (p & [<-|I] & Op); [|eauto]. pose proof (same_one _ _ _ _ _ (same_sym _ _ _ _ O) (same_sym _ _ _ _ Op)). subst p'. pose proof (H' h' Ip). lia.
Qed.
Lemma lefts_same prog prog' cm sd : same_lines prog prog' ->
  Forall2 (same_op prog prog') (filter (on_side prog cm sd) (left_over prog)) (filter (on_side prog' cm sd) (left_over prog')).
Proof.
  intros SL. assert (ON : forall p i x, nth_error p i = Some x -> on_side p cm sd i = true <-> x_comm x = cm /\ x_side x = sd).
  { intros p i x X. unfold on_side. rewrite X, andb_true_iff, Z.eqb_eq. destruct (x_side x), sd; split; intros [? ?]; split; auto; discriminate. }
  assert (IN : forall p i, In i (left_over p) -> exists x, nth_error p i = Some x).
  { intros p i I. pose proof (proj2 (ri_in _ _ _ _ i (rule_final p)) (or_introl I)) as Li. destruct (nth_error p i) as [x|] eqn:X; [eauto|apply nth_error_None in X; lia]. }
  assert (HALF : forall p p', same_lines p p' -> forall i, In i (filter (on_side p cm sd) (left_over p)) -> exists i', In i' (filter (on_side p' cm sd) (left_over p')) /\ same_op p p' i i').
  { intros p p' SL1 i I. apply filter_In in I. destruct I as [I Ci]. destruct (IN p i I) as (x & X). destruct (same_exists p p' i x SL1 X) as (i' & O). exists i'. split; [|exact O].
    pose proof O as (x1 & X1 & X' & _). assert (x1 = x) by congruence. subst x1. apply filter_In. split; [exact (left_one _ _ _ _ SL1 O I)|]. apply (ON p' i' x X'). apply (ON p i x X), Ci. }
  destruct (filter (on_side prog cm sd) (left_over prog)) as [|h t] eqn:E.
  - destruct (filter (on_side prog' cm sd) (left_over prog')) as [|h' t'] eqn:E'; [constructor|].
    destruct (HALF prog' prog (lines_sym _ _ SL) h') as (i & I & _); [rewrite E'; left; reflexivity|]. rewrite E in I. destruct I.
  - assert (Ih : In h (filter (on_side prog cm sd) (left_over prog))) by (rewrite E; left; reflexivity). apply filter_In in Ih. destruct Ih as [Ih Ch].
    destruct (IN prog h Ih) as (z & Z). apply (ON _ _ _ Z) in Ch. destruct Ch as [C1 C2]. rewrite <- E.
    apply (sorted_same prog prog' z).
    + apply sorted_filter. exact (ri_sorted _ _ _ _ (rule_final prog)).
    + apply sorted_filter. exact (ri_sorted _ _ _ _ (rule_final prog')).
    + intros i I. apply filter_In in I. destruct I as [I Ci]. destruct (IN prog i I) as (x & X). exists x. split; [exact X|]. apply (ON _ _ _ X) in Ci. apply kindred_eq. destruct Ci. split; congruence.
    + apply HALF, SL.
    + intros i' I'. destruct (HALF prog' prog (lines_sym _ _ SL) i' I') as (i & I & O). exists i. split; [exact I|apply same_sym, O].
Qed.
Lemma waits_same prog prog' hs hs' cm sd : forall L L', Forall2 (same_op prog prog') L L' -> forall P P',
  Forall2 (waits_for prog hs cm sd) L P -> Forall2 (waits_for prog' hs' cm sd) L' P' -> map no_request P = map no_request P'.
Proof.
  induction 1 as [|i i' L L' O F IH]; intros P P' W W'; inversion W as [|? p ? Q Wp WQ]; inversion W' as [|? p' ? Q' Wp' WQ']; subst; [reflexivity|].
  cbn [map]. f_equal; [|apply IH; assumption]. destruct O as (x & X & X' & _).
  destruct Wp as (u & U & _ & _ & _ & B1 & B2 & B3 & B4). destruct Wp' as (v & V & _ & _ & _ & D1 & D2 & D3 & D4).
  assert (u = x) by congruence. assert (v = x) by congruence. subst u v. unfold no_request. congruence.
Qed.

(** *** The other program can be run too. *)
Lemma lines_in prog prog' x : same_lines prog prog' -> In x prog' -> In x prog.
Proof.
  intros SL I. assert (J : In x (filter (kindred x) prog')) by (apply filter_In; split; [exact I|apply kindred_refl]). rewrite <- SL in J. apply filter_In in J. apply J.
Qed.
Lemma lines_length : forall prog prog', same_lines prog prog' -> length prog = length prog'.
Proof.
  induction prog as [|x l IH]; intros prog' SL.
  - destruct prog' as [|y l']; [reflexivity|]. destruct (lines_in _ _ y SL). left. reflexivity.
  - assert (E : nth_error (filter (kindred x) prog') 0 = Some x) by (rewrite <- SL; cbn [filter]; rewrite kindred_refl; reflexivity).
    destruct (filter_nth _ _ _ _ E) as (i & I & Z). apply nth_error_split in I. destruct I as (b & e & -> & Li).
    rewrite <- Li, firstn_app, firstn_all, Nat.sub_diag in Z. cbn [firstn] in Z. rewrite app_nil_r in Z. apply length_zero_iff_nil in Z.
    rewrite app_length. cbn [length]. rewrite Nat.add_succ_r, <- app_length. f_equal. apply IH. intros z. specialize (SL z).
    rewrite filter_app in *. cbn [filter] in SL. destruct (kindred z x) eqn:K; [|exact SL].
    assert (Zb : filter (kindred z) b = []) by (rewrite <- Z; apply filter_ext; apply kindred_same, K). rewrite Zb in *. cbn [app] in *. congruence.
Qed.
Lemma pair_either c a m i j p q x y : (j <? i)%nat = (q <? p)%nat -> pair_ok c a m p q x y -> pair_ok c a m i j x y.
Proof.
  intros E H. assert (D : described i j x y = described p q x y) by (unfold described; rewrite E; reflexivity).
  assert (T : taken c i j x y = taken c p q x y) by (unfold taken; rewrite D; reflexivity).
  destruct H. constructor; rewrite ?D, ?T; assumption.
Qed.
Lemma movable_ok c a m prog : movable c a m prog -> acts_ok c a m prog.
Proof.
  intros [V1 V2 V3 V4 V5]. constructor; auto. intros i j x y I X Y. destruct (V4 i j x y I X Y) as (A & B & _).
  destruct (j <? i)%nat eqn:E; [apply (pair_either c a m i j 1 0)|apply (pair_either c a m i j 0 1)]; auto.
Qed.
Lemma movable_separate c a m prog : movable c a m prog -> separate c prog.
Proof.
  intros [V1 V2 V3 V4 V5]. constructor; auto. intros i j x y I X Y. destruct (V4 i j x y I X Y) as (_ & _ & A & B). split; [|exact B].
  unfold taken, described. destruct (j <? i)%nat; [reflexivity|exact A].
Qed.
Lemma movable_other c a m prog prog' : same_lines prog prog' -> movable c a m prog -> movable c a m prog'.
Proof.
  intros SL [V1 V2 V3 V4 V5]. assert (IN : forall x, In x prog' -> In x prog) by (intros x; apply lines_in, SL). constructor; auto.
  - intros x k p I. apply V3. auto.
  - intros i' j' x y I X Y. destruct (same_exists prog' prog i' x (lines_sym _ _ SL) X) as (i & Oi). destruct (same_exists prog' prog j' y (lines_sym _ _ SL) Y) as (j & Oj).
    pose proof Oi as (x1 & X1 & X' & _). pose proof Oj as (y1 & Y1 & Y' & _). assert (x1 = x) by congruence. assert (y1 = y) by congruence. subst x1 y1.
    apply (V4 i j); auto. eapply (C112_pairs_lemma prog prog'); eauto using same_sym.
  - intros i' j' x y X Y N SY. destruct (same_exists prog' prog i' x (lines_sym _ _ SL) X) as (i & Oi). destruct (same_exists prog' prog j' y (lines_sym _ _ SL) Y) as (j & Oj).
    pose proof Oi as (x1 & X1 & X' & _). pose proof Oj as (y1 & Y1 & Y' & _). assert (x1 = x) by congruence. assert (y1 = y) by congruence. subst x1 y1.
    apply (V5 i j); auto. intros ->. apply N. exact (same_one _ _ _ _ _ Oi Oj).
Qed.
Lemma moved_same c prog prog' m m1 m1' : same_lines prog prog' -> PairSpec.moved c prog m m1 -> PairSpec.moved c prog' m m1' -> forall z, m1 z = m1' z.
Proof.
  intros SL [A B] [A' B'] z. pose proof (C112_stable_lemma prog) as S.
  assert (D : forall l : list (nat * nat), incl l (couples prog) ->
    (exists i j y r, In (i, j) l /\ nth_error prog j = Some y /\ In r (area c y) /\ inside r z) \/
    (forall i j y r, In (i, j) l -> nth_error prog j = Some y -> In r (area c y) -> ~ inside r z)).
  { induction l as [|[i j] l IH]; intros Ic; [right; intros i j y r []|].
    destruct (IH (fun p I => Ic p (or_intror I))) as [(p & q & y & r & I & R)|N]; [left; exists p, q, y, r; split; [right; exact I|exact R]|].
    destruct (sb_fit _ _ S i j (Ic _ (or_introl eq_refl))) as (x & y & X & Y & _).
    assert (E : forall rs : list region, (exists r, In r rs /\ inside r z) \/ (forall r, In r rs -> ~ inside r z)).
    { induction rs as [|r rs IHr]; [right; intros r []|]. destruct IHr as [(r1 & I1 & J1)|N1]; [left; exists r1; split; [right; exact I1|exact J1]|].
      destruct (Z_le_dec (fst r) z) as [L1|L1]; [destruct (Z_lt_dec z (fst r + snd r)) as [L2|L2]; [left; exists r; split; [left; reflexivity|split; assumption]|]|];
        (right; intros r1 [<-|I1]; [unfold inside; lia|auto]). }
    destruct (E (area c y)) as [(r & Ir & Jr)|N1]; [left; exists i, j, y, r; split; [left; reflexivity|auto]|].
    right. intros p q y1 r [Ep|I] Y1 Ir; [injection Ep as <- <-; assert (y1 = y) by congruence; subst y1; auto|eapply N; eauto]. }
  destruct (D (couples prog) (incl_refl _)) as [(i & j & y & r & I & Y & Ir & Jr)|N].
  - destruct (sb_fit _ _ S i j I) as (x & y1 & X & Y1 & _). assert (y1 = y) by congruence. subst y1.
    destruct (same_exists prog prog' i x SL X) as (i' & Oi). destruct (same_exists prog prog' j y SL Y) as (j' & Oj).
    pose proof (proj1 (C112_pairs_lemma _ _ SL _ _ _ _ Oi Oj) I) as I'.
    destruct Oi as (x1 & X1 & X' & _). destruct Oj as (y1 & Y2 & Y' & _). assert (x1 = x) by congruence. assert (y1 = y) by congruence. subst x1 y1.
    refine (ExchangeFacts.bytes_app_inv m1 m1' (area c y) _ r z Ir Jr). rewrite (A i j x y I X Y), (A' i' j' x y I' X' Y'). reflexivity.
  - rewrite B by exact N. symmetry. apply B'. intros i' j' y r I' Y Ir.
    destruct (sb_fit _ _ (C112_stable_lemma prog') i' j' I') as (x & y1 & X & Y1 & _). assert (y1 = y) by congruence. subst y1.
    destruct (same_exists prog' prog i' x (lines_sym _ _ SL) X) as (i & Oi). destruct (same_exists prog' prog j' y (lines_sym _ _ SL) Y) as (j & Oj).
    pose proof (proj1 (C112_pairs_lemma _ _ (lines_sym _ _ SL) _ _ _ _ Oi Oj) I') as I. destruct Oj as (y2 & Y2 & Y3 & _). assert (y2 = y) by congruence. subst y2.
    exact (N i j y r I Y3 Ir).
Qed.
Lemma reports_same prog prog' i i' q q' : same_lines prog prog' -> same_op prog prog' i i' -> reports prog i q -> reports prog' i' q' -> report q = report q'.
Proof.
  intros SL O. assert (H : forall p, In p (left_over prog) -> forall j, ~ together (couples prog) p j) by (intros p Ip j; exact (ri_alone _ _ _ _ p j (rule_final prog) Ip)).
  assert (H' : forall p, In p (left_over prog') -> forall j, ~ together (couples prog') p j) by (intros p Ip j; exact (ri_alone _ _ _ _ p j (rule_final prog') Ip)).
  assert (FWD : forall j, together (couples prog) i j -> exists j', same_op prog prog' j j').
  { intros j T. destruct (tog_fit prog _ (proj1 (C104_rule_lemma prog)) _ _ T) as (_ & y & _ & Y & _). exact (same_exists prog prog' j y SL Y). }
  assert (BACK : forall j', together (couples prog') i' j' -> exists j, same_op prog prog' j j').
  { intros j' T. destruct (tog_fit prog' _ (proj1 (C104_rule_lemma prog')) _ _ T) as (_ & y & _ & Y & _).
    destruct (same_exists prog' prog j' y (lines_sym _ _ SL) Y) as (j & Oj). exists j. apply same_sym, Oj. }
  pose proof (C112_stable_lemma prog') as S'.
  intros [[L R]|[(j & I & R)|(j & y & I & Y & R)]] [[L' R']|[(j' & I' & R')|(j' & y' & I' & Y' & R')]]; try congruence.
  - exfalso. destruct (BACK j' (or_introl I')) as (j & Oj). apply (H i L j). left. eapply C112_pairs_lemma; eauto.
  - exfalso. destruct (BACK j' (or_intror I')) as (j & Oj). apply (H i L j). right. eapply C112_pairs_lemma; eauto.
  - exfalso. destruct (FWD j (or_introl I)) as (j' & Oj). apply (H' i' L' j'). left. exact (proj1 (C112_pairs_lemma _ _ SL _ _ _ _ O Oj) I).
  - exfalso. destruct (FWD j (or_introl I)) as (u & Oj). pose proof (proj1 (C112_pairs_lemma _ _ SL _ _ _ _ O Oj) I) as J.
    destruct (sb_fit _ _ S' i' u J) as (x1 & _ & X1 & _ & SX & _). destruct (sb_fit _ _ S' j' i' I') as (_ & x2 & _ & X2 & _ & SY & _). congruence.
  - exfalso. destruct (FWD j (or_intror I)) as (j' & Oj). apply (H' i' L' j'). right. exact (proj1 (C112_pairs_lemma _ _ SL _ _ _ _ Oj O) I).
  - exfalso. destruct (FWD j (or_intror I)) as (u & Oj). pose proof (proj1 (C112_pairs_lemma _ _ SL _ _ _ _ Oj O) I) as J.
    destruct (sb_fit _ _ S' i' j' I') as (x1 & _ & X1 & _ & SX & _). destruct (sb_fit _ _ S' u i' J) as (_ & x2 & _ & X2 & _ & SY & _). congruence.
  - destruct (FWD j (or_intror I)) as (u & Oj). pose proof (proj1 (C112_pairs_lemma _ _ SL _ _ _ _ Oj O) I) as J.
    assert (u = j') by exact (snd_once _ _ _ _ (proj2 (sb_once _ _ S')) J I'). subst u. destruct Oj as (v & V & V' & _). assert (y = v) by congruence. assert (y' = v) by congruence. congruence.
Qed.

Theorem C112_run_lemma c tj s a prog prog' : reach c tj s a -> cfg_ok c -> mem_ok (s_mem s) -> movable c a (s_mem s) prog -> same_lines prog prog' ->
  Z.of_nat (length prog) <= handles_left a -> a_items a + Z.of_nat (length prog) <= INT_MAX ->
  exists hs s1 a1 hs' s1' a1', gives c tj (map act_call prog) s a (map VInt hs) s1 a1 /\ gives c tj (map act_call prog') s a (map VInt hs') s1' a1' /\
    (forall z, s_mem s1 z = s_mem s1' z) /\
    (forall cm k, comm_at a cm = Some k -> exists k1 k1', comm_at a1 cm = Some k1 /\ comm_at a1' cm = Some k1' /\ same_queues k1 k1') /\
    (forall i i' h h', same_op prog prog' i i' -> nth_error hs i = Some h -> nth_error hs' i' = Some h' ->
       exists q q', req_at a1 h = Some q /\ req_at a1' h' = Some q' /\ report q = report q').
Proof.
  intros R CO MO MV SL HL HI. pose proof (movable_other _ _ _ _ _ SL MV) as MV'. pose proof (lines_length _ _ SL) as LE.
  destruct (C104_lemma c tj s a prog R CO MO (movable_ok _ _ _ _ MV) HL HI) as (hs & s1 & a1 & G & T & Q & _ & _ & RQ & _).
  destruct (C104_lemma c tj s a prog' R CO MO (movable_ok _ _ _ _ MV')) as (hs' & s1' & a1' & G' & T' & Q' & _ & _ & RQ' & _); [rewrite <- LE; exact HL|rewrite <- LE; exact HI|].
  exists hs, s1, a1, hs', s1', a1'. do 2 (split; [assumption|]). split; [|split].
  - apply (moved_same c prog prog' (s_mem s) (s_mem s1) (s_mem s1') SL); apply C104_moved_lemma; eauto using movable_separate.
  - intros cm k K. destruct (Q cm k K) as (k1 & K1 & U & W). destruct (Q' cm k K) as (k1' & K1' & U' & W'). exists k1, k1'. do 2 (split; [assumption|]).
    split; [congruence|]. intros sd. destruct (W sd) as (P & E & F). destruct (W' sd) as (P' & E' & F'). rewrite E, E', !map_app. f_equal.
    exact (waits_same prog prog' hs hs' cm sd _ _ (lefts_same prog prog' cm sd SL) P P' F F').
  - intros i i' h h' O Hi Hi'. destruct (RQ i h Hi) as (_ & q & Eq & Rq). destruct (RQ' i' h' Hi') as (_ & q' & Eq' & Rq'). exists q, q'. do 2 (split; [assumption|]).
    exact (reports_same _ _ _ _ _ _ SL O Rq Rq').
Qed.
Theorem C112_op_lemma prog prog' : same_lines prog prog' -> length prog = length prog' /\
  (forall i, (i < length prog)%nat -> exists i', same_op prog prog' i i' /\ forall k, same_op prog prog' i k -> k = i').
Proof.
  intros SL. split; [exact (lines_length _ _ SL)|]. intros i L. destruct (nth_error prog i) as [x|] eqn:X; [|apply nth_error_None in X; lia].
  destruct (same_exists _ _ _ _ SL X) as (i' & O). exists i'. split; [exact O|]. intros k K. exact (same_one _ _ _ _ _ (same_sym _ _ _ _ K) (same_sym _ _ _ _ O)).
Qed.
