(** Request arrays, and the refinement theorem. *)
From Verif Require Import Base ListModel ListProofs HandleModel HandleSpec HandleProofs HandleExact TypeModel CopyModel SysModel CollModel SysCalls SysSpec SysAbs SysSim SysSim2.

Section SysSim3.
Variable c : cfg.
Variable tj : Z -> tjunk.
Notation Abs := (Abs tj).
Notation agree := (agree tj).

Definition nonnull (r : Z) : bool := negb (r =? MPI_REQUEST_NULL).

Lemma s_test_keeps r a x fl w a' : s_test r a = Ret (x, fl, w) a' ->
  forall y, y <> r -> legal_req y a -> legal_req y a'.
Proof.
  intros E y N [->|(q & Eq)]; [left; reflexivity|right]. exists q. revert E. unfold s_test.
  destruct (r =? MPI_REQUEST_NULL); [intros E; injection E as <- <- <- <-; auto|].
  destruct (req_at a r) as [q'|]; [|discriminate]. destruct (report q').
  - unfold sbind, s_free, sret. intros E. injection E as <- <- <- <-. unfold req_at in *. cbn. rewrite upd_other; auto.
  - intros E. injection E as <- <- <- <-. auto.
Qed.

(** The requests [rs] may be tested one after the other. *)
Definition testable (rs : list Z) (a : astate) : Prop := (forall r, In r rs -> legal_req r a) /\ NoDup (filter nonnull rs).

Lemma testable_next r rs a x fl w a' : testable (r :: rs) a -> s_test r a = Ret (x, fl, w) a' -> testable rs a'.
Proof.
  intros [L ND] E. split.
  - intros y Hy. destruct (Z.eqb_spec y MPI_REQUEST_NULL) as [->|Ny]; [left; reflexivity|].
    apply (s_test_keeps _ _ _ _ _ _ E); [|apply L; simpl; auto].
    intros ->. cbn [filter] in ND. unfold nonnull in ND at 1. apply Z.eqb_neq in Ny. rewrite Ny in ND. cbn [negb] in ND.
    inversion ND as [|? ? Hn _]; subst. apply Hn. apply filter_In. split; auto. unfold nonnull. rewrite Ny. reflexivity.
  - cbn [filter] in ND. destruct (nonnull r); [inversion ND; auto|auto].
Qed.

Lemma arr_get_mid (done : list Z) r rest : arr_get (done ++ r :: rest) (Z.of_nat (length done)) = Ok r.
Proof. apply arr_get_nth; [lia|]. rewrite Nat2Z.id, nth_error_app2, Nat.sub_diag by lia. reflexivity. Qed.
Lemma list_upd_mid {A} (done : list A) x rest y : list_upd (done ++ x :: rest) (length done) y = done ++ y :: rest.
Proof. induction done as [|d done IH]; cbn [app length list_upd]; [reflexivity|]. rewrite IH. reflexivity. Qed.
Lemma arr_set_mid (done : list Z) r rest y : arr_set (done ++ r :: rest) (Z.of_nat (length done)) y = Ok (done ++ y :: rest).
Proof.
  rewrite arr_set_ok; [|rewrite app_length; cbn [length]; lia]. rewrite Nat2Z.id, list_upd_mid. reflexivity.
Qed.

(** *** Testany, Waitany *)
Lemma testany_ok : forall n rest done st s a, Abs s a -> (n <= length rest)%nat -> testable (firstn n rest) a -> st <> SBad ->
  agree (fun x y => fst (fst x) = fst (fst y) /\ snd (fst x) = snd (fst y) /\ wrote st (snd y) (snd x))
    (testany_from n (Z.of_nat (length done)) (done ++ rest) st s) (s_testany n done rest a).
Proof.
  induction n as [|n IH]; intros rest done st s a A L TS NB.
  - cbn [testany_from s_testany]. destruct rest; cbn; auto.
  - destruct rest as [|r rest]; [cbn in L; lia|]. cbn [testany_from s_testany firstn] in *.
    unfold mbind at 1. unfold pure. rewrite arr_get_mid. cbn [bind].
    eapply agree_bind.
    { apply (test_ok tj); [exact A|apply (proj1 TS); simpl; auto|intros _; exact NB]. }
    intros [[r1 fl] st1] [[r2 fl2] w] s' a' Et Es (E1 & E2 & E3) A'. cbn [fst snd] in E1, E2, E3. subst r2 fl2.
    rewrite arr_set_mid. unfold mbind. cbn [bind].
    destruct (fl =? 0) eqn:Ef; cbn [negb].
    + assert (st1 = st).
      { revert Es. unfold s_test. destruct (r =? MPI_REQUEST_NULL); [intros X; injection X as <- <- <- <-; discriminate|].
        destruct (req_at a r) as [q|]; [|discriminate]. destruct (report q).
        - unfold sbind, s_free, sret. intros X. injection X as <- <- <- <-. discriminate.
        - intros X. injection X as <- <- <- <-. exact E3. }
      subst st1. specialize (IH rest (done ++ [r1]) st s' a' A' ltac:(cbn in L; lia)).
      rewrite app_length in IH. cbn [length] in IH. rewrite <- app_assoc in IH. cbn [app] in IH.
      replace (Z.of_nat (length done + 1)) with (Z.of_nat (length done) + 1) in IH by lia.
      apply IH; auto. eapply testable_next; eauto.
    + cbn. split; [|exact A']. split; [reflexivity|]. split; [|exact E3].
      revert Es. unfold s_test. destruct (r =? MPI_REQUEST_NULL); [intros X; injection X as <- <- <- <-; reflexivity|].
      destruct (req_at a r) as [q|]; [|discriminate]. destruct (report q).
      * unfold sbind, s_free, sret. intros X. injection X as <- <- <- <-. reflexivity.
      * intros X. injection X as <- <- <- <-. discriminate.
Qed.

(** *** Status arrays *)
Definition wrote_from (i : nat) (sts : sargs) (ws : list write) (sts' : sargs) : Prop :=
  match sts with
  | SSIgnore => sts' = SSIgnore
  | SSAt l => exists l', sts' = SSAt l' /\ length l' = length l /\
       forall j x, nth_error l j = Some x ->
         exists y, nth_error l' j = Some y /\ wrote (SAt x) (if (j <? i)%nat then NoWrite else nth (j - i) ws NoWrite) (SAt y)
  end.

Lemma wrote_from_nil i sts : wrote_from i sts [] sts.
Proof.
  destruct sts as [|l]; cbn [wrote_from]; auto. exists l. split; [reflexivity|]. split; [reflexivity|]. intros j x E. exists x. split; auto.
  assert (N : forall k, nth k (@nil write) NoWrite = NoWrite) by (intros [|k]; reflexivity).
  rewrite N. destruct (j <? i)%nat; exact eq_refl.
Qed.

Lemma sts_get_ok i n sts : legal_sts (Z.of_nat i + Z.of_nat (S n)) sts -> sts_get sts (Z.of_nat i) <> SBad.
Proof.
  destruct sts as [|l]; cbn [legal_sts sts_get]; intros H.
  - replace (Z.of_nat i) with 0 by lia. discriminate.
  - destruct (arr_get_ok l (Z.of_nat i)) as (x & E & _); [lia|]. rewrite E. discriminate.
Qed.

Lemma nth_error_list_upd {A} (l : list A) : forall i j (x : A), (i < length l)%nat ->
  nth_error (list_upd l i x) j = if (j =? i)%nat then Some x else nth_error l j.
Proof.
  induction l as [|y l IH]; intros [|i] [|j] x H; cbn in *; try lia; auto. apply IH. lia.
Qed.
Lemma length_list_upd {A} (l : list A) : forall i (x : A), length (list_upd l i x) = length l.
Proof. induction l as [|y l IH]; intros [|i] x; cbn; auto. Qed.

Lemma wrote_from_cons i n sts w ws st sts' : legal_sts (Z.of_nat i + Z.of_nat (S n)) sts ->
  wrote (sts_get sts (Z.of_nat i)) w st ->
  wrote_from (S i) (sts_put sts (Z.of_nat i) st) ws sts' -> wrote_from i sts (w :: ws) sts'.
Proof.
  intros L W H. destruct sts as [|l]; [exact H|]. cbn [legal_sts] in L.
  cbn [sts_get] in W. destruct (arr_get_ok l (Z.of_nat i)) as (x & E & En); [lia|]. rewrite E in W. rewrite Nat2Z.id in En.
  assert (exists y, st = SAt y) as (y & ->).
  { destruct w; cbn [wrote] in W; [eauto|]. destruct W as (y & -> & _). eauto. }
  cbn [sts_put wrote_from] in *. rewrite Nat2Z.id in H. destruct H as (l' & -> & HL & H).
  rewrite length_list_upd in HL. exists l'. split; [reflexivity|]. split; auto.
  intros j z Hj. assert (Hj' : nth_error (list_upd l i y) j = Some (if (j =? i)%nat then y else z)).
  { rewrite nth_error_list_upd by lia. destruct (j =? i)%nat; auto. }
  destruct (H _ _ Hj') as (u & Eu & Wu). exists u. split; auto.
  destruct (Nat.eqb_spec j i) as [->|N].
  - rewrite Nat.ltb_irrefl, Nat.sub_diag. cbn [nth]. assert (z = x) by congruence. subst z.
    replace (i <? S i)%nat with true in Wu by (symmetry; apply Nat.ltb_lt; lia). cbn [wrote] in Wu. injection Wu as ->. exact W.
  - destruct (Nat.ltb_spec j i); destruct (Nat.ltb_spec j (S i)); try lia; [exact Wu|].
    replace (j - i)%nat with (S (j - S i)) by lia. exact Wu.
Qed.

Lemma legal_sts_put i st n sts : legal_sts n sts -> legal_sts n (sts_put sts i st).
Proof. destruct sts as [|l]; auto. destruct st as [|x|]; auto. cbn. rewrite length_list_upd. auto. Qed.

Lemma test_at_ok done r rest sts n s a : Abs s a -> legal_req r a ->
  legal_sts (Z.of_nat (length done) + Z.of_nat (S n)) sts ->
  agree (fun x y => let '(rs, sts', fl) := x in let '(r', fl', w) := y in
           rs = done ++ r' :: rest /\ fl = fl' /\
           exists st, sts' = sts_put sts (Z.of_nat (length done)) st /\ wrote (sts_get sts (Z.of_nat (length done))) w st)
    (test_at (done ++ r :: rest) sts (Z.of_nat (length done)) s) (s_test r a).
Proof.
  intros A L LS. unfold test_at. unfold mbind at 1, pure. rewrite arr_get_mid. cbn [bind].
  pose proof (test_ok tj s a r (sts_get sts (Z.of_nat (length done))) A L (fun _ => sts_get_ok _ _ _ LS)) as H.
  unfold mbind. unfold SysSim.agree in *.
  destruct (MPI_Test r (sts_get sts (Z.of_nat (length done))) s) as [[[[r1 fl] st1] s']| | | |]; destruct (s_test r a) as [[[r2 fl2] w] a'| |];
    cbn [bind]; try contradiction; auto.
  destruct H as [(E1 & E2 & E3) A']. cbn [fst snd] in *. subst r2 fl2. rewrite arr_set_mid. cbn [bind ret].
  split; [|exact A']. split; [reflexivity|]. split; [reflexivity|]. eauto.
Qed.

Lemma tests_ok (stepf : Z -> Z -> res Z) (step : Z -> Z -> Z) (P : Z -> Z -> Prop) N :
  (forall i acc fl, i < N -> P i acc -> stepf acc fl = Ok (step acc fl) /\ P (i + 1) (step acc fl)) ->
  forall n rest done acc sts s a, Abs s a -> (n <= length rest)%nat -> testable (firstn n rest) a ->
  Z.of_nat (length done) + Z.of_nat n <= N -> P (Z.of_nat (length done)) acc ->
  legal_sts (Z.of_nat (length done) + Z.of_nat n) sts ->
  agree (fun x y => let '(rs, acc', sts') := x in let '(rs', flags, ws) := y in
           rs = done ++ rs' /\ acc' = fold_left step flags acc /\ wrote_from (length done) sts ws sts')
    (for_from n (Z.of_nat (length done)) (fun i bs =>
       (let '(reqs, acc, sts) := fst bs in
        let* (reqs, sts, fl) := test_at reqs sts i in
        let* acc := pure (stepf acc fl) in ret (reqs, acc, sts)) (snd bs)) ((done ++ rest, acc, sts), s))
    (s_tests n rest a).
Proof.
  intros ST. induction n as [|n IH]; intros rest done acc sts s a A L TS HN HP LS.
  - cbn [for_from s_tests]. destruct rest; cbn [sret SysSim.agree]; (split; [|exact A]); (split; [reflexivity|]); (split; [reflexivity|apply wrote_from_nil]).
  - destruct rest as [|r rest]; [cbn in L; lia|]. cbn [for_from s_tests firstn fst snd] in *.
    pose proof (test_at_ok done r rest sts n s a A (proj1 TS r (or_introl eq_refl)) LS) as H.
    unfold mbind at 1. unfold sbind at 1. unfold SysSim.agree in H.
    destruct (test_at (done ++ r :: rest) sts (Z.of_nat (length done)) s) as [[[[rs sts1] fl] s1]| | | |];
      destruct (s_test r a) as [[[r' fl'] w] a'| |] eqn:Es; cbn [bind]; try contradiction; try exact H.
    destruct H as [(-> & -> & st & -> & W) A'].
    destruct (ST (Z.of_nat (length done)) acc fl' ltac:(lia) HP) as (E1 & P1).
    unfold mbind, pure. rewrite E1. cbn [bind ret].
    specialize (IH rest (done ++ [r']) (step acc fl') (sts_put sts (Z.of_nat (length done)) st) s1 a' A' ltac:(cbn in L; lia)
                  (testable_next _ _ _ _ _ _ _ TS Es)).
    rewrite app_length in IH. cbn [length] in IH. rewrite <- app_assoc in IH. cbn [app] in IH.
    replace (Z.of_nat (length done + 1)) with (Z.of_nat (length done) + 1) in IH by lia.
    specialize (IH ltac:(lia) P1). rewrite Nat.add_1_r in IH.
    assert (LS' : legal_sts (Z.of_nat (length done) + 1 + Z.of_nat n) (sts_put sts (Z.of_nat (length done)) st)).
    { apply legal_sts_put. replace (Z.of_nat (length done) + 1 + Z.of_nat n) with (Z.of_nat (length done) + Z.of_nat (S n)) by lia. exact LS. }
    specialize (IH LS'). unfold sbind. unfold SysSim.agree in *.
    match type of IH with match ?Y with _ => _ end => set (XX := Y) in IH end.
    match goal with |- match ?X with _ => _ end => change X with XX end. clearbody XX.
    destruct XX as [[[[rs acc1] sts2] s2]| | | |]; destruct (s_tests n rest a') as [[[rs' flags] ws] a2| |]; try contradiction; auto.
    destruct IH as [(-> & -> & W2) A2]. split; [|exact A2]. cbn [fold_left]. split; [rewrite <- app_assoc; reflexivity|].
    split; [reflexivity|]. eapply wrote_from_cons; eauto.
Qed.

Lemma waitall_ok : forall n rest done sts s a, Abs s a -> (n <= length rest)%nat -> testable (firstn n rest) a ->
  legal_sts (Z.of_nat (length done) + Z.of_nat n) sts ->
  agree (fun x y => let '(rs, sts') := x in let '(rs', ws) := y in
           rs = done ++ rs' /\ wrote_from (length done) sts ws sts')
    (for_from n (Z.of_nat (length done)) (fun i bs =>
       (let '(reqs, sts) := fst bs in
        let* (reqs, sts, fl) := test_at reqs sts i in
        if fl =? 0 then pure (Abort "MPI_Waitall: request not complete, deadlock") else ret (reqs, sts)) (snd bs)) ((done ++ rest, sts), s))
    (s_waitall n rest a).
Proof.
  induction n as [|n IH]; intros rest done sts s a A L TS LS.
  - cbn [for_from s_waitall]. destruct rest; cbn [sret SysSim.agree]; (split; [|exact A]); (split; [reflexivity|apply wrote_from_nil]).
  - destruct rest as [|r rest]; [cbn in L; lia|]. cbn [for_from s_waitall firstn fst snd] in *.
    pose proof (test_at_ok done r rest sts n s a A (proj1 TS r (or_introl eq_refl)) LS) as H.
    unfold mbind at 1. unfold s_wait. unfold sbind at 1 2. unfold SysSim.agree in H.
    destruct (test_at (done ++ r :: rest) sts (Z.of_nat (length done)) s) as [[[[rs sts1] fl] s1]| | | |];
      destruct (s_test r a) as [[[r' fl'] w] a'| |] eqn:Es; cbn [bind]; try contradiction; try exact H.
    destruct H as [(-> & -> & st & -> & W) A'].
    destruct (fl' =? 0); [reflexivity|]. cbn [bind ret sret].
    specialize (IH rest (done ++ [r']) (sts_put sts (Z.of_nat (length done)) st) s1 a' A' ltac:(cbn in L; lia)
                  (testable_next _ _ _ _ _ _ _ TS Es)).
    rewrite app_length in IH. cbn [length] in IH. rewrite <- app_assoc in IH. cbn [app] in IH.
    replace (Z.of_nat (length done + 1)) with (Z.of_nat (length done) + 1) in IH by lia.
    rewrite Nat.add_1_r in IH.
    assert (LS' : legal_sts (Z.of_nat (length done) + 1 + Z.of_nat n) (sts_put sts (Z.of_nat (length done)) st)).
    { apply legal_sts_put. replace (Z.of_nat (length done) + 1 + Z.of_nat n) with (Z.of_nat (length done) + Z.of_nat (S n)) by lia. exact LS. }
    specialize (IH LS'). unfold sbind. unfold SysSim.agree in *.
    match type of IH with match ?Y with _ => _ end => set (XX := Y) in IH end.
    match goal with |- match ?X with _ => _ end => change X with XX end. clearbody XX.
    destruct XX as [[[rs sts2] s2]| | | |]; destruct (s_waitall n rest a') as [[rs' ws] a2| |]; try contradiction; auto.
    destruct IH as [(-> & W2) A2]. split; [|exact A2]. split; [rewrite <- app_assoc; reflexivity|].
    eapply wrote_from_cons; eauto.
Qed.

Lemma wrote_from_all sts ws sts' : wrote_from 0 sts ws sts' -> wrote_all sts ws sts'.
Proof.
  destruct sts as [|l]; auto. intros (l' & E & L & H). exists l'. split; auto. split; auto.
  intros i x Ex. destruct (H i x Ex) as (y & Ey & W). exists y. split; auto. rewrite Nat.sub_0_r in W. exact W.
Qed.

Lemma legal_testable n rs a : legal_reqs n rs a -> (Z.to_nat n <= length rs)%nat /\ testable (firstn (Z.to_nat n) rs) a.
Proof. intros (A & _ & B & C). split; [lia|]. split; auto. Qed.

Definition tests_rel (step : Z -> Z -> Z) (acc : Z) (sts : sargs) (x : list Z * Z * sargs) (y : list Z * list Z * list write) : Prop :=
  let '(rs, acc', sts') := x in let '(rs', flags, ws) := y in
  rs = rs' /\ acc' = fold_left step flags acc /\ wrote_all sts ws sts'.

Definition all_step (acc fl : Z) : Z := if fl =? 0 then 0 else acc.
Definition some_step (acc fl : Z) : Z := if fl =? 0 then acc else acc + 1.

Lemma legal_sts_neg n sts : legal_sts n sts -> legal_sts (Z.of_nat 0 + Z.of_nat (Z.to_nat n)) sts.
Proof. destruct sts; cbn [legal_sts]; lia. Qed.

Lemma testall_ok s a n rs sts : Abs s a -> legal_reqs n rs a -> legal_sts n sts ->
  agree (tests_rel all_step 1 sts) (MPI_Testall n rs sts s) (s_tests (Z.to_nat n) rs a).
Proof.
  intros A L LS. destruct (legal_testable _ _ _ L) as [L1 TS]. unfold MPI_Testall.
  assert (X : forall e : M (list Z * Z * sargs), forall s, (let* (reqs, flag, sts) := e in ret (reqs, flag, sts)) s = e s).
  { intros e s0. unfold mbind. destruct (e s0) as [[[[x y] z] s1]| | | |]; reflexivity. }
  rewrite X. unfold mfor. unfold for_loop. rewrite Z.sub_0_r.
  erewrite for_from_ext.
  - eapply agree_weaken.
    + apply (tests_ok (fun acc fl => Ok (all_step acc fl)) all_step (fun _ _ => True) (Z.of_nat (Z.to_nat n))) with (done := []) (acc := 1);
        [auto|exact A|exact L1|exact TS|cbn [length]; lia|exact I|apply legal_sts_neg; exact LS].
    + intros [[x1 x2] x3] [[y1 y2] y3] (-> & -> & W). split; [reflexivity|]. split; [reflexivity|]. apply wrote_from_all. exact W.
  - intros j [[[rs0 fl] sts0] s0] _. reflexivity.
Qed.

Lemma testsome_ok s a n rs ix sts : Abs s a -> legal_reqs n rs a -> legal_sts n sts ->
  agree (fun x y => let '(rs, o, ix', sts') := x in ix' = ix /\ tests_rel some_step 0 sts (rs, o, sts') y)
    (MPI_Testsome n rs ix sts s) (s_tests (Z.to_nat n) rs a).
Proof.
  intros A L LS. destruct (legal_testable _ _ _ L) as [L1 TS]. unfold MPI_Testsome.
  assert (H : agree (tests_rel some_step 0 sts) (mfor n (fun i x =>
     let '(reqs, outcount, sts) := x in
     let* (reqs, sts, flag) := test_at reqs sts i in
     if flag =? 0 then ret (reqs, outcount, sts)
     else let* n := pure (chk_int (outcount + 1)) in ret (reqs, n, sts)) (rs, 0, sts) s) (s_tests (Z.to_nat n) rs a)).
  { unfold mfor, for_loop. rewrite Z.sub_0_r.
    erewrite for_from_ext.
    - eapply agree_weaken.
      + apply (tests_ok (fun acc fl => if fl =? 0 then Ok acc else chk_int (acc + 1)) some_step (fun i acc => 0 <= acc <= i) (Z.of_nat (Z.to_nat n))) with (done := []) (acc := 0);
          [|exact A|exact L1|exact TS|cbn [length]; lia|cbn [length]; lia|apply legal_sts_neg; exact LS].
        intros i acc fl Hi HP. unfold some_step. destruct (fl =? 0); [split; [reflexivity|lia]|].
        split; [|lia]. apply chk_int_ok. destruct L as (_ & HL & _). unfold INT_MIN. lia.
      + intros [[x1 x2] x3] [[y1 y2] y3] (-> & -> & W). split; [reflexivity|]. split; [reflexivity|]. apply wrote_from_all. exact W.
    - intros j [[[rs0 fl] sts0] s0] _. cbn [fst snd]. unfold mbind.
      destruct (test_at rs0 sts0 j s0) as [[[[x y] z] s1]| | | |]; cbn [bind]; auto.
      destruct (z =? 0); [reflexivity|]. unfold pure. destruct (chk_int (fl + 1)); reflexivity. }
  unfold mbind at 1. unfold SysSim.agree in *.
  match type of H with match ?Y with _ => _ end => destruct Y as [[[[x1 x2] x3] s1]| | | |] end;
    destruct (s_tests (Z.to_nat n) rs a) as [[[y1 y2] y3] a1| |]; cbn [bind ret]; try contradiction; auto.
  destruct H as [H1 H2]. exact (conj (conj eq_refl H1) H2).
Qed.

Lemma waitall_ok' s a n rs sts : Abs s a -> legal_reqs n rs a -> legal_sts n sts ->
  agree (fun x y => fst x = fst y /\ wrote_all sts (snd y) (snd x)) (MPI_Waitall n rs sts s) (s_waitall (Z.to_nat n) rs a).
Proof.
  intros A L LS. destruct (legal_testable _ _ _ L) as [L1 TS]. unfold MPI_Waitall, mfor, for_loop. rewrite Z.sub_0_r.
  eapply agree_weaken.
  - apply (waitall_ok (Z.to_nat n) rs [] sts s a A L1 TS). apply legal_sts_neg. exact LS.
  - intros [x1 x2] [y1 y2] (-> & W). split; [reflexivity|]. apply wrote_from_all. exact W.
Qed.

Lemma fold_all : forall flags acc, fold_left all_step flags acc = if forallb (fun f => negb (f =? 0)) flags then acc else 0.
Proof.
  induction flags as [|f fs IH]; intros acc; cbn [fold_left forallb]; [reflexivity|]. rewrite IH. unfold all_step.
  destruct (f =? 0); cbn [negb andb]; [destruct (forallb _ fs); reflexivity|reflexivity].
Qed.
Lemma fold_some : forall flags acc, fold_left some_step flags acc = acc + how_many flags.
Proof.
  unfold how_many. induction flags as [|f fs IH]; intros acc; cbn [fold_left filter]; [cbn; lia|]. rewrite IH. unfold some_step.
  destruct (f =? 0); cbn [negb length]; lia.
Qed.

(** *** The refinement theorem *)
Lemma agree_map {A B} (R : A -> B -> Prop) (h : A -> out) (g : B -> out -> Prop) (e : M A) (f : sp B) s a :
  agree R (e s) (f a) -> (forall v w, R v w -> g w (h v)) -> agree (fun o (Q : out -> Prop) => Q o) (mmap h e s) (smap g f a).
Proof.
  intros H K. unfold mmap, smap. eapply agree_bind; [exact H|]. intros v w s' a' _ _ Rv A'. cbn. auto.
Qed.

Lemma agree_ret {A} (x : A) s a : Abs s a -> agree eq (ret x s) (sret x a).
Proof. intros H. cbn. auto. Qed.

Lemma next_fresh s a h fr top : Abs s a -> next_handle (a_freed a) (a_top a) = Some (h, fr, top) -> a_obj a h = None /\ 1 <= h.
Proof.
  intros A E. destruct (ab_ex A) as (lv & f & ids & g & T & Lv & LI & R). pose proof (alloc_slot_ok s T) as AL.
  rewrite E in AL. destruct AL as (t1 & o & _ & N & HR & _). split; [eapply lv_fresh; eauto|lia].
Qed.

Lemma comm_obj_at a cm k : comm_at a cm = Some k -> a_obj a cm = Some (AComm k).
Proof. unfold comm_at. destruct (a_obj a cm) as [[| |]|]; congruence. Qed.

Lemma s_isend_req s b n t d g cm a h a' : Abs s a -> s_isend c b n t d g cm a = Ret h a' -> exists q, req_at a' h = Some q /\ h <> 0.
Proof.
  intros A. unfold s_isend, sbind, s_alloc, s_xfer. destruct (negb (rank_ok d)); [discriminate|].
  destruct (next_handle _ _) as [[[h1 fr] top]|] eqn:NH.
  2: { destruct (d =? MPI_PROC_NULL); [discriminate|]. destruct (comm_at a cm); [|discriminate]. destruct (first_such _ _) as [[[? ?] ?]|]; discriminate. }
  destruct (next_fresh _ _ _ _ _ A NH) as [F0 F1].
  destruct (d =? MPI_PROC_NULL).
  { intros E. injection E as <- <-. exists QNullSend. unfold req_at. cbn. rewrite upd_same. split; [reflexivity|lia]. }
  destruct (comm_at a cm) as [k|] eqn:Ek; [|discriminate]. apply comm_obj_at in Ek.
  assert (N : h1 <> cm) by congruence.
  destruct (first_such _ _) as [[[bb p] ee]|].
  - destruct (xfer_res _ _ _ _ _ _ _ _) as [m| | | |]; try discriminate. intros E. injection E as <- <-.
    unfold req_at. cbn. rewrite (upd_other _ cm) by auto. unfold upd. destruct (Z.eqb_spec h1 (p_req p)).
    + eexists. split; [reflexivity|lia].
    + rewrite Z.eqb_refl. eexists. split; [reflexivity|lia].
  - intros E. injection E as <- <-. unfold req_at. cbn. rewrite (upd_other _ cm) by auto. rewrite upd_same. eexists. split; [reflexivity|lia].
Qed.

Lemma s_irecv_req s b n t d g cm a h a' : Abs s a -> s_irecv c b n t d g cm a = Ret h a' -> exists q, req_at a' h = Some q /\ h <> 0.
Proof.
  intros A. unfold s_irecv, sbind, s_alloc, s_xfer. destruct (negb (source_ok d)); [discriminate|].
  destruct (next_handle _ _) as [[[h1 fr] top]|] eqn:NH.
  2: { destruct (d =? MPI_PROC_NULL); [discriminate|]. destruct (comm_at a cm); [|discriminate]. destruct (first_such _ _) as [[[? ?] ?]|]; discriminate. }
  destruct (next_fresh _ _ _ _ _ A NH) as [F0 F1].
  destruct (d =? MPI_PROC_NULL).
  { intros E. injection E as <- <-. exists QNullRecv. unfold req_at. cbn. rewrite upd_same. split; [reflexivity|lia]. }
  destruct (comm_at a cm) as [k|] eqn:Ek; [|discriminate]. apply comm_obj_at in Ek.
  assert (N : h1 <> cm) by congruence.
  destruct (first_such _ _) as [[[bb p] ee]|].
  - destruct (xfer_res _ _ _ _ _ _ _ _) as [m| | | |]; try discriminate. intros E. injection E as <- <-.
    unfold req_at. cbn. rewrite (upd_other _ cm) by auto. unfold upd. destruct (Z.eqb_spec h1 (p_req p)).
    + eexists. split; [reflexivity|lia].
    + rewrite Z.eqb_refl. eexists. split; [reflexivity|lia].
  - intros E. injection E as <- <-. unfold req_at. cbn. rewrite (upd_other _ cm) by auto. rewrite upd_same. eexists. split; [reflexivity|lia].
Qed.

Lemma send_ok s a b n t d g cm : Abs s a -> legal_isend c b n t d g cm a ->
  agree eq (MPI_Send c b n t d g cm s) (s_send c b n t d g cm a).
Proof.
  intros A L. unfold MPI_Send, s_send. eapply agree_bind; [apply (isend_ok c tj); eauto|].
  intros v w s' a' _ E -> A'. destruct (s_isend_req _ _ _ _ _ _ _ _ _ _ A E) as (q & Eq & _).
  eapply agree_bind; [apply (wait_ok tj _ _ _ _ A'); [right; eauto|discriminate]|].
  intros v1 w1 s1 a1 _ _ _ A1. cbn. auto.
Qed.

Lemma irsend_ok s a b n t d g cm : Abs s a -> legal_isend c b n t d g cm a ->
  agree eq (MPI_Irsend c b n t d g cm s) (s_irsend c b n t d g cm a).
Proof.
  intros A L. unfold MPI_Irsend, s_irsend. eapply agree_bind; [apply (isend_ok c tj); eauto|].
  intros v w s' a' _ E -> A'. destruct (s_isend_req _ _ _ _ _ _ _ _ _ _ A E) as (q & Eq & Nw).
  destruct (ab_ex A') as (lv & f & ids & gg & T & Lv & LI & R).
  assert (Eo : a_obj a' w = Some (AReq q)).
  { unfold req_at in Eq. destruct (a_obj a' w) as [[| |]|]; congruence. }
  assert (Lr : In w lv) by (apply Lv; congruence).
  destruct (rl_req R Eo) as (ro & Er & RO).
  unfold mbind, pure. rewrite (handle_ptr_live _ _ T Lr). cbn [bind slot_of].
  rewrite (get_req_ok _ _ _ T Lr Er). cbn [bind]. unfold complete. rewrite Eq.
  destruct (Z.eqb_spec w MPI_REQUEST_NULL) as [X|_]; [unfold MPI_REQUEST_NULL in X; lia|]. cbn [orb].
  destruct (report q) eqn:Rq.
  - assert (C1 : r_complete ro = 1) by (destruct q; cbn [req_ok report] in *; try discriminate; tauto).
    rewrite C1. cbn. auto.
  - assert (C1 : r_complete ro = 0) by (destruct q; cbn [req_ok report] in *; try discriminate; tauto).
    rewrite C1. reflexivity.
Qed.

Lemma recv_ok s a b n t d g cm st : Abs s a -> legal_irecv c b n t d g cm a -> st <> SBad ->
  agree (fun st2 w => exists st', wrote st w st' /\ st2 = with_count st' n) (MPI_Recv c b n t d g cm st s) (s_recv c b n t d g cm a).
Proof.
  intros A L NB. unfold MPI_Recv, s_recv. eapply agree_bind; [apply (irecv_ok c tj); eauto|].
  intros v w s' a' _ E -> A'. destruct (s_irecv_req _ _ _ _ _ _ _ _ _ _ A E) as (q & Eq & _).
  eapply agree_bind; [apply (wait_ok tj _ _ _ st A'); [right; eauto|auto]|].
  intros [v1 st1] [w1 ww] s1 a1 _ _ [_ W] A1. cbn [fst snd] in W. unfold pure.
  destruct st1 as [|x|]; cbn [set_count bind sret SysSim.agree].
  - split; auto. exists SIgnore. auto.
  - split; auto. exists (SAt x). auto.
  - exfalso. destruct ww; cbn [wrote] in W; [congruence|]. destruct st; [congruence| |congruence]. destruct W as (y & W & _). discriminate.
Qed.

Lemma s_isend_keeps s b n t d g cm a h a' w q : Abs s a -> s_isend c b n t d g cm a = Ret h a' -> req_at a w = Some q ->
  h <> w /\ exists q', req_at a' w = Some q'.
Proof.
  intros A E Eq.
  assert (Eo : a_obj a w = Some (AReq q)).
  { unfold req_at in Eq. destruct (a_obj a w) as [[| |]|]; congruence. }
  revert E. unfold s_isend, sbind, s_alloc, s_xfer. destruct (negb (rank_ok d)); [discriminate|].
  destruct (next_handle _ _) as [[[h1 fr] top]|] eqn:NH.
  2: { destruct (d =? MPI_PROC_NULL); [discriminate|]. destruct (comm_at a cm); [|discriminate]. destruct (first_such _ _) as [[[? ?] ?]|]; discriminate. }
  destruct (next_fresh _ _ _ _ _ A NH) as [F0 F1].
  assert (N1 : w <> h1) by congruence.
  destruct (d =? MPI_PROC_NULL).
  { intros E. injection E as <- <-. split; auto. exists q. unfold req_at. cbn. rewrite upd_other by auto. rewrite Eo. reflexivity. }
  destruct (comm_at a cm) as [k|] eqn:Ek; [|discriminate]. apply comm_obj_at in Ek.
  assert (N : w <> cm) by congruence.
  destruct (first_such _ _) as [[[bb p] ee]|].
  - destruct (xfer_res _ _ _ _ _ _ _ _) as [m| | | |]; try discriminate. intros E. injection E as <- <-. split; auto.
    unfold req_at. cbn. rewrite (upd_other _ cm) by auto. unfold upd. destruct (Z.eqb_spec w (p_req p)); [eauto|].
    destruct (Z.eqb_spec w h1); [contradiction|]. rewrite Eo. eauto.
  - intros E. injection E as <- <-. split; auto. unfold req_at. cbn. rewrite (upd_other _ cm), (upd_other _ h1) by auto. rewrite Eo. eauto.
Qed.

Lemma sendrecv_ok s a sb sn sty d sg rb rn rt so rg cm st : Abs s a -> legal_irecv c rb rn rt so rg cm a -> st <> SBad ->
  match s_irecv c rb rn rt so rg cm a with Ret _ a => legal_isend c sb sn sty d sg cm a | _ => True end ->
  agree (fun st' w => wrote st w st') (MPI_Sendrecv c sb sn sty d sg rb rn rt so rg cm st s) (s_sendrecv c sb sn sty d sg rb rn rt so rg cm a).
Proof.
  intros A L NB LS. unfold MPI_Sendrecv, s_sendrecv. eapply agree_bind; [apply (irecv_ok c tj); eauto|].
  intros v w s' a' _ E -> A'. rewrite E in LS. destruct (s_irecv_req _ _ _ _ _ _ _ _ _ _ A E) as (q & Eq & Nw).
  assert (K : forall s2 a2 q2, Abs s2 a2 -> req_at a2 w = Some q2 ->
    agree (fun st' w => wrote st w st') ((let* (_, st) := MPI_Wait w st in ret st) s2) ((then* (_, w) := s_wait wait_msg w in sret w) a2)).
  { intros s2 a2 q2 A2 E2. eapply agree_bind; [apply (wait_ok tj _ _ _ st A2); [right; eauto|auto]|].
    intros [v1 st1] [w1 ww] s1 a1 _ _ [_ W] A1. cbn [fst snd] in W. cbn. auto. }
  eapply agree_bind; [apply send_ok; eauto|].
  intros [] [] s2 a2 _ E2 _ A2.
  assert (exists q2, req_at a2 w = Some q2) as (q2 & Eq2); [|eapply K; eauto].
  revert E2. unfold s_send, sbind. destruct (s_isend c sb sn sty d sg cm a') as [h a3| |] eqn:E3; try discriminate.
  destruct (s_isend_keeps _ _ _ _ _ _ _ _ _ _ _ _ A' E3 Eq) as (Nh & q' & Eq').
  unfold s_wait, sbind. destruct (s_test h a3) as [[[r1 fl] ww] a4| |] eqn:E4; try discriminate.
  destruct (fl =? 0); [discriminate|]. cbn. intros X. injection X as <-.
  destruct (s_test_keeps _ _ _ _ _ _ E4 w ltac:(auto)) as [X|X]; eauto.
  - right. eauto.
  - exfalso. apply Nw. exact X.
Qed.

Lemma probe_ok s a source tag comm st : Abs s a -> known a comm -> st <> SBad ->
  (source = 0 \/ source = MPI_ANY_SOURCE -> exists k, comm_at a comm = Some k) ->
  agree (fun st' w => wrote st w st') (MPI_Probe source tag comm st s) (s_probe source tag comm a).
Proof.
  intros A K NB L. unfold MPI_Probe, s_probe. eapply agree_bind; [apply (iprobe_ok tj); eauto|].
  intros [v1 st1] [w1 ww] s1 a1 _ _ [E W] A1. cbn [fst snd] in *. subst w1. destruct (v1 =? 0); [reflexivity|]. cbn. auto.
Qed.

Lemma request_free_ok s a r : Abs s a -> complete a r = true -> agree eq (MPI_Request_free r s) (s_request_free r a).
Proof.
  intros A C. unfold MPI_Request_free, s_request_free, mbind. destruct (ab_ex A) as (lv & f & ids & g & T & Lv & LI & R).
  unfold complete in C. destruct (Z.eqb_spec r MPI_REQUEST_NULL) as [->|N]; cbn [orb] in C.
  - unfold release, free_handle. cbn [MPI_REQUEST_NULL Z.eqb bind ret]. rewrite set_tab_id. cbn. auto.
  - unfold req_at in C. destruct (a_obj a r) as [[|q|]|] eqn:Eo; try discriminate.
    destruct (report q) eqn:Rq; [|discriminate].
    assert (Lr : In r lv) by (apply Lv; congruence).
    destruct (release_ok s r T Lr) as (t' & E & T'). rewrite E. cbn [bind ret].
    unfold sbind, s_free, sret, SysSim.agree. split; [reflexivity|].
    eapply (free_abs tj); eauto. congruence.
Qed.

(** *** Calls that only move memory *)
Lemma wrap_mul d e : to_s32 (to_u64 (to_u64 d * e)) = to_s32 (d * e).
Proof.
  assert (H : forall x, to_s32 (to_u64 x) = to_s32 x).
  { intros x. unfold to_s32, to_u64. f_equal. rewrite (Z.div_mod x TWO64) at 2 by discriminate.
    replace (TWO64 * (x / TWO64) + x mod TWO64 + 2147483648) with (x mod TWO64 + 2147483648 + (TWO32 * (x / TWO64)) * TWO32)
      by (unfold TWO64, TWO32; ring).
    rewrite Z_mod_plus_full. reflexivity. }
  rewrite H. unfold to_u64. rewrite <- (H (d mod TWO64 * e)), <- (H (d * e)). unfold to_u64.
  rewrite Zmult_mod_idemp_l. reflexivity.
Qed.

Lemma bind_get0 {A B} (x : A) l (k : A -> M B) s : mbind (pure (arr_get (x :: l) 0)) k s = k x s.
Proof. reflexivity. Qed.
Lemma bind_run {A B} (e : M A) (k : A -> M B) x s s' : e s = Ok (x, s') -> mbind e k s = k x s'.
Proof. intros E. unfold mbind. rewrite E. reflexivity. Qed.

Lemma offset_run s a ty buf ds p : Abs s a -> displaced c a ty buf ds = Some p ->
  exists off, offset_of c ty ds s = Ok (off, s) /\ padd buf off = p.
Proof.
  intros A E. unfold displaced in E. destruct (type_at c a ty) as [t|] eqn:Et; [|discriminate].
  destruct ds as [|d ds]; [discriminate|]. destruct (Type_extent c t) as [e| | | |] eqn:Ee; try discriminate. injection E as <-.
  destruct (type_at_run c tj _ _ _ _ A Et) as (n & En).
  exists (to_s32 (d * e)). split; [|reflexivity].
  unfold offset_of. rewrite (bind_run _ _ e s s).
  - rewrite bind_get0. unfold ret. rewrite wrap_mul. reflexivity.
  - unfold MPI_Type_extent. rewrite (bind_run _ _ (n, t) s s En). unfold pure. cbn [snd]. rewrite Ee. reflexivity.
Qed.

Lemma move_run s a src sn sty dst dn dty : Abs s a -> defined (xfer_res c a src sn sty dst dn dty) ->
  copy_data2 c src sn sty dst dn dty s = (do m <- xfer_res c a src sn sty dst dn dty; Ok (tt, set_mem s m)).
Proof.
  intros A D. destruct (xfer_types c _ _ _ _ _ _ _ D) as (st & dt & Es & Ed).
  destruct (type_at_run c tj _ _ _ _ A Es) as (n1 & E1). destruct (type_at_run c tj _ _ _ _ A Ed) as (n2 & E2).
  unfold copy_data2, mbind. rewrite E1. cbn [bind]. rewrite E2. cbn [bind snd].
  unfold xfer_res in *. rewrite Es, Ed in *. rewrite (ab_mem A). reflexivity.
Qed.

Lemma set_mem_same s : set_mem s (s_mem s) = s. Proof. destruct s. reflexivity. Qed.

Lemma coll_run s a k : Abs s a -> defined (coll_res c k a) ->
  MPI_coll c k s = (do m <- plan_res c a (coll_plan c a k); Ok (tt, set_mem s m)).
Proof.
  intros A D. unfold coll_res in D. set (r := do m <- plan_res c a (coll_plan c a k); Ok (tt, set_mem s m)).
  assert (HN : coll_plan c a k = Some Nothing -> ret tt s = r).
  { intros E. unfold r. rewrite E. cbn. rewrite <- (ab_mem A), set_mem_same. reflexivity. }
  assert (HR : forall w, coll_plan c a k = Some (Refuse w) -> pure (Abort w) s = r).
  { intros w E. unfold r. rewrite E. reflexivity. }
  assert (HM : forall src sn st dst dn dt, coll_plan c a k = Some (Move src sn st dst dn dt) -> copy_data2 c src sn st dst dn dt s = r).
  { intros * E. unfold r. rewrite E in *. cbn [plan_res] in *. apply move_run; auto. destruct (xfer_res c a src sn st dst dn dt); cbn in *; auto. }
  assert (HU : coll_plan c a k <> None). { intros E. rewrite E in D. exact D. }
  clear D. clearbody r.
  assert (RT : forall root w p e, coll_plan c a k = at_root root w p -> (root =? MPI_ROOT = false -> root =? 0 = true ->
     coll_plan c a k = p -> e s = r) -> root_test root w e s = r).
  { intros root w p e E H. unfold root_test, at_root in *. destruct (root =? MPI_ROOT); [apply HN; auto|].
    destruct (root =? 0); cbn [negb]; [apply H; auto|apply HR; auto]. }
  assert (IP : forall b p e, coll_plan c a k = in_place b p -> (coll_plan c a k = p -> e s = r) ->
     (if b =? MPI_IN_PLACE then ret tt else e) s = r).
  { intros b p e E H. unfold in_place in *. destruct (b =? MPI_IN_PLACE); [apply HN; auto|apply H; auto]. }
  destruct k; cbn [MPI_coll].
  - apply HN. reflexivity.
  - eapply RT; [reflexivity|]. auto.
  - eapply IP; [reflexivity|]. intros E. eapply RT; [exact E|]. auto.
  - eapply IP; [reflexivity|]. intros E. eapply RT; [exact E|]. intros _ _ E'. unfold moved in E'.
    destruct (displaced c a rty rbuf displs) as [p|] eqn:Ed; [|congruence]. destruct rcounts as [|n rc]; [congruence|].
    destruct (offset_run _ _ _ _ _ _ A Ed) as (off & Eo & Ep). rewrite (bind_run _ _ _ _ _ Eo), bind_get0, Ep. apply HM. exact E'.
  - eapply IP; [reflexivity|]. auto.
  - eapply IP; [reflexivity|]. intros E'. unfold moved in E'.
    destruct (displaced c a rty rbuf displs) as [p|] eqn:Ed; [|congruence]. destruct rcounts as [|n rc]; [congruence|].
    destruct (offset_run _ _ _ _ _ _ A Ed) as (off & Eo & Ep). rewrite (bind_run _ _ _ _ _ Eo), bind_get0, Ep. apply HM. exact E'.
  - eapply IP; [reflexivity|]. intros E. eapply RT; [exact E|]. auto.
  - eapply IP; [reflexivity|]. intros E. eapply RT; [exact E|]. intros _ _ E'. unfold moved in E'.
    destruct (displaced c a sty sbuf displs) as [p|] eqn:Ed; [|congruence]. destruct scounts as [|n rc]; [congruence|].
    destruct (offset_run _ _ _ _ _ _ A Ed) as (off & Eo & Ep). rewrite (bind_run _ _ _ _ _ Eo), bind_get0, Ep. apply HM. exact E'.
  - cbn [coll_plan] in *. destruct (Z.eqb_spec root 0) as [->|N]; cbn [negb]; [apply HM|apply HR]; reflexivity.
  - eapply IP; [reflexivity|]. auto.
  - cbn [coll_plan] in *. unfold moved in *. destruct rcounts as [|n rc]; [congruence|]. rewrite bind_get0. apply HM. reflexivity.
  - apply HM. reflexivity.
  - apply HM. reflexivity.
  - cbn [coll_plan] in *. unfold moved in *.
    destruct (displaced c a sty sbuf sdispls) as [p|] eqn:Ed; [|congruence]. destruct scounts as [|n rc]; [congruence|].
    destruct (displaced c a rty rbuf rdispls) as [p'|] eqn:Ed'; [|congruence]. destruct rcounts as [|n' rc']; [congruence|].
    destruct (offset_run _ _ _ _ _ _ A Ed) as (off & Eo & Ep). destruct (offset_run _ _ _ _ _ _ A Ed') as (off' & Eo' & Ep').
    rewrite (bind_run _ _ _ _ _ Eo), (bind_run _ _ _ _ _ Eo'), !bind_get0, Ep, Ep'. apply HM. reflexivity.
  - cbn [coll_plan] in *. unfold moved in *. destruct sdispls as [|sd sds]; [congruence|]. destruct stys as [|st sts]; [congruence|].
    destruct rdispls as [|rd rds]; [congruence|]. destruct rtys as [|rt rts]; [congruence|].
    destruct scounts as [|n rc]; [congruence|]. destruct rcounts as [|n' rc']; [congruence|].
    rewrite !bind_get0. apply HM. reflexivity.
Qed.

Lemma coll_ok s a k : Abs s a -> defined (coll_res c k a) ->
  agree eq (MPI_coll c k s) (s_moves (coll_res c k) a).
Proof.
  intros A D. rewrite (coll_run s a k A D). unfold s_moves, coll_res in *.
  destruct (plan_res c a (coll_plan c a k)); cbn [bind]; try contradiction; try (cbn; auto; fail).
  cbn. split; auto. constructor; try apply A. reflexivity.
Qed.

Lemma pack_ok s a ib n ty ob sz p comm : Abs s a -> known a comm -> defined (pack_res c ib n ty ob sz p a) ->
  agree eq (MPI_Pack c ib n ty ob sz p comm s) (s_moves (pack_res c ib n ty ob sz p) a).
Proof.
  intros A K D. unfold pack_res, s_moves in *. destruct (type_at c a ty) as [t|] eqn:Et; [|contradiction].
  destruct (type_at_run c tj _ _ _ _ A Et) as (n1 & E1). unfold MPI_Pack, mbind. rewrite E1. cbn [bind snd].
  destruct (known_ptr tj s a comm A K) as (q & t' & Eq & A' & _). rewrite Eq. cbn [bind].
  rewrite (ab_mem A').
  destruct (Pack c (a_mem a) ib n t ob sz p) as [[m x]| | | |]; cbn [bind]; try contradiction; try (cbn; auto; fail).
  cbn. split; auto. constructor; try apply A'. reflexivity.
Qed.
Lemma unpack_ok s a ib sz p ob n ty comm : Abs s a -> known a comm -> defined (unpack_res c ib sz p ob n ty a) ->
  agree eq (MPI_Unpack c ib sz p ob n ty comm s) (s_moves (unpack_res c ib sz p ob n ty) a).
Proof.
  intros A K D. unfold unpack_res, s_moves in *. destruct (type_at c a ty) as [t|] eqn:Et; [|contradiction].
  destruct (type_at_run c tj _ _ _ _ A Et) as (n1 & E1). unfold MPI_Unpack, mbind. rewrite E1. cbn [bind snd].
  destruct (known_ptr tj s a comm A K) as (q & t' & Eq & A' & _). rewrite Eq. cbn [bind].
  rewrite (ab_mem A').
  destruct (Unpack c (a_mem a) ib sz p ob n t) as [[m x]| | | |]; cbn [bind]; try contradiction; try (cbn; auto; fail).
  cbn. split; auto. constructor; try apply A'. reflexivity.
Qed.
Lemma pack_size_ok s a n ty comm : Abs s a -> known a comm -> legal_query c ty (Pack_size c n) a ->
  agree eq (MPI_Pack_size c n ty comm s) (s_query c ty (Pack_size c n) a).
Proof.
  intros A K (t & Et & D). unfold MPI_Pack_size, mbind, s_query. destruct (type_at_run c tj _ _ _ _ A Et) as (n1 & E1).
  rewrite E1, Et. cbn [bind snd].
  destruct (known_ptr tj s a comm A K) as (q & t' & Eq & A' & _). rewrite Eq. cbn [bind]. unfold pure.
  destruct (Pack_size c n t); cbn [bind]; try contradiction; cbn; auto.
Qed.

Lemma cart_loop s dims : forall n k, (n + k <= length dims)%nat ->
  for_from n (Z.of_nat k) (fun i bs =>
    (fun (i : Z) (_ : unit) => let* d := pure (arr_get dims i) in
     if d >? 1 then pure (Abort "MPI_Cart_create: Greater dimension than no. of procs") else ret tt) i (fst bs) (snd bs)) (tt, s) =
  (if existsb (fun d => d >? 1) (firstn n (skipn k dims)) then Abort "MPI_Cart_create: Greater dimension than no. of procs" else Ok (tt, s)).
Proof.
  induction n as [|n IH]; intros k H; [reflexivity|].
  destruct (nth_error dims k) as [d|] eqn:En.
  2: { apply nth_error_None in En. lia. }
  assert (Es : skipn k dims = d :: skipn (S k) dims).
  { clear - En. revert k En. induction dims as [|x r IH]; intros [|k] En; cbn in *; try discriminate.
    - injection En as ->. reflexivity.
    - apply IH. exact En. }
  rewrite Es. cbn [for_from firstn existsb fst snd]. unfold mbind at 1, pure at 1.
  rewrite (arr_get_nth dims (Z.of_nat k) d) by (try lia; rewrite Nat2Z.id; auto). cbn [bind].
  destruct (d >? 1); cbn [orb]; [reflexivity|]. cbn [ret bind]. 
  replace (Z.of_nat k + 1) with (Z.of_nat (S k)) by lia. unfold ret. cbn [bind]. apply IH. lia.
Qed.

Lemma cart_create_ok s a comm n dims per re : Abs s a -> n <= Z.of_nat (length dims) -> room_comm a ->
  agree eq (MPI_Cart_create comm n dims per re s) (s_cart n dims a).
Proof.
  intros A L R. unfold MPI_Cart_create, s_cart. unfold mbind at 1, mfor.
  pose proof (cart_loop s dims (Z.to_nat n) 0) as H. cbn [skipn] in H. change (Z.of_nat 0) with 0 in H.
  unfold for_loop. rewrite Z.sub_0_r. rewrite H by lia. clear H.
  destruct (existsb (fun d => d >? 1) (firstn (Z.to_nat n) dims)); cbn [bind]; [reflexivity|].
  apply (comm_new_ok tj); auto.
Qed.

Theorem exec_ok k s a : Abs s a -> legal c tj k a -> agree (fun o (Q : out -> Prop) => Q o) (exec c k s) (spec c tj k a).
Proof.
  intros A L. destruct k; cbn [exec spec legal] in *.
  - eapply agree_map; [apply init_ok; auto|reflexivity].
  - apply (agree_map (fun v (_ : unit) => v = required)); [|intros v w ->; reflexivity]. unfold MPI_Init_thread.
    pose proof (init_ok tj s a A L) as H. unfold mbind, SysSim.agree in *.
    destruct (MPI_Init s) as [[v s1]| | | |]; destruct (s_startup a); cbn [bind ret]; try contradiction; auto.
    destruct H as [_ H]. split; [reflexivity|exact H].
  - eapply agree_map; [apply finalize_ok; auto|reflexivity].
  - unfold mmap, mbind, MPI_Initialized, gets. cbn. rewrite (ab_init A). auto.
  - eapply agree_map; [apply (comm_new_ok tj); auto|intros v w ->; reflexivity].
  - unfold MPI_Comm_create. destruct ((group =? MPI_GROUP_NULL) || (group =? MPI_GROUP_EMPTY)) eqn:E.
    + eapply agree_map; [apply agree_ret; auto|intros v w ->; reflexivity].
    + eapply agree_map; [apply (comm_new_ok tj); auto|intros v w ->; reflexivity].
      apply orb_false_iff in E. destruct E as [E1 E2]. apply Z.eqb_neq in E1, E2. tauto.
  - unfold MPI_Comm_split. destruct (Z.eqb_spec color MPI_UNDEFINED).
    + eapply agree_map; [apply agree_ret; auto|intros v w ->; reflexivity].
    + eapply agree_map; [apply (comm_new_ok tj); auto; tauto|intros v w ->; reflexivity].
  - unfold MPI_Intercomm_create, MPI_Comm_dup. destruct ((local_comm =? MPI_COMM_NULL) && (peer_comm =? MPI_COMM_NULL)) eqn:E.
    + eapply agree_map; [apply agree_ret; auto|intros v w ->; reflexivity].
    + eapply agree_map; [apply (comm_new_ok tj); auto|intros v w ->; reflexivity].
      destruct L as [[-> ->]|L]; [discriminate|exact L].
  - destruct L as (k & Ek). eapply agree_map; [eapply comm_free_ok; eauto|intros [[v ws] wr] w <-; reflexivity].
  - eapply agree_map; [apply isend_ok; auto|intros v w ->; reflexivity].
  - eapply agree_map; [apply irecv_ok; auto|intros v w ->; reflexivity].
  - eapply agree_map; [apply irsend_ok; auto|intros v w ->; reflexivity].
  - eapply agree_map; [apply send_ok; auto|reflexivity].
  - eapply agree_map; [apply send_ok; auto|reflexivity].
  - eapply agree_map; [apply send_ok; auto|reflexivity].
  - eapply agree_map; [apply recv_ok; tauto|]. intros v w (st' & W & ->). eauto.
  - eapply agree_map; [apply sendrecv_ok; tauto|]. intros v w W. exists v. split; [exact W|reflexivity].
  - eapply agree_map; [apply test_ok; tauto|]. intros [[r1 f1] st1] [[r2 f2] w] (E1 & E2 & W). cbn [fst snd] in *. subst. eauto.
  - eapply agree_map; [apply wait_ok; tauto|]. intros [r1 st1] [r2 w] (E1 & W). cbn [fst snd] in *. subst. eauto.
  - destruct L as [L NB]. destruct (legal_testable _ _ _ L) as [L1 TS]. unfold MPI_Testany.
    pose proof (testany_ok (Z.to_nat count) reqs [] st s a A L1 TS NB) as H. cbn [length app] in H. change (Z.of_nat 0) with 0 in H.
    unfold mmap, smap, mbind, sbind, SysSim.agree in *.
    destruct (testany_from (Z.to_nat count) 0 reqs st s) as [[[[r1 f1] st1] s1]| | | |];
      destruct (s_testany (Z.to_nat count) [] reqs a) as [[[r2 f2] w] a1| |]; cbn [bind ret]; try contradiction; auto.
    destruct H as [(E1 & E2 & W) A1]. cbn [fst snd] in *. subst. cbn [sret]. split; eauto.
  - destruct L as [L NB]. destruct (legal_testable _ _ _ L) as [L1 TS]. unfold MPI_Waitany, MPI_Testany, s_waitany.
    pose proof (testany_ok (Z.to_nat count) reqs [] st s a A L1 TS NB) as H. cbn [length app] in H. change (Z.of_nat 0) with 0 in H.
    unfold mmap, smap, mbind, sbind, SysSim.agree in *.
    destruct (testany_from (Z.to_nat count) 0 reqs st s) as [[[[r1 f1] st1] s1]| | | |];
      destruct (s_testany (Z.to_nat count) [] reqs a) as [[[r2 f2] w] a1| |]; cbn [bind ret]; try contradiction; auto.
    destruct H as [(E1 & E2 & W) A1]. cbn [fst snd] in *. subst. destruct (f2 =? 0); [reflexivity|]. cbn [sret bind ret]. split; eauto.
  - destruct L as [L1 L2]. eapply agree_map; [apply testall_ok; eauto|].
    intros [[r1 f1] st1] [[r2 fs] ws] (-> & -> & W). exists st1. split; auto. rewrite fold_all. reflexivity.
  - destruct L as [L1 L2]. eapply agree_map; [apply waitall_ok'; eauto|].
    intros [r1 st1] [r2 ws] (E & W). cbn [fst snd] in *. subst. eauto.
  - destruct L as [L1 L2]. eapply agree_map; [apply testsome_ok; eauto|].
    intros [[[r1 o] ix] st1] [[r2 fs] ws] (-> & -> & -> & W). exists st1. split; auto. rewrite fold_some. reflexivity.
  - destruct L as [L1 L2]. eapply agree_map; [apply testsome_ok; eauto|].
    intros [[[r1 o] ix] st1] [[r2 fs] ws] (-> & -> & -> & W). exists st1. split; auto. rewrite fold_some. reflexivity.
  - eapply agree_map; [apply request_free_ok; auto|intros v w ->; reflexivity].
  - destruct L as (L1 & L2 & L3). eapply agree_map; [apply iprobe_ok; eauto|].
    intros [f1 st1] [f2 w] (E & W). cbn [fst snd] in *. subst. eauto.
  - destruct L as (L1 & L2 & L3). eapply agree_map; [apply probe_ok; eauto|]. intros v w W. exists v. split; [exact W|reflexivity].
  - eapply agree_map; [apply type_create_ok; auto|intros v w ->; reflexivity].
  - destruct L as (t & Et). eapply agree_map; [eapply type_commit_ok; eauto|reflexivity].
  - destruct L as (t & Et). eapply agree_map; [eapply type_free_ok; eauto|intros v w ->; reflexivity].
  - eapply agree_map; [apply query_ok; eauto|intros v w ->; reflexivity].
  - eapply agree_map; [apply query_ok; eauto|intros v w ->; reflexivity].
  - eapply agree_map; [apply (query_ok c tj s a h (fun t => Ok (Type_lb t)) A L)|intros v w ->; reflexivity].
  - eapply agree_map; [apply (query_ok c tj s a h (fun t => Ok (Type_ub t)) A L)|intros v w ->; reflexivity].
  - eapply agree_map; [apply (query_ok c tj s a h (elements (st_count st)) A L)|intros v w ->; reflexivity].
  - eapply agree_map; [apply pack_ok; tauto|intros v w ->; reflexivity].
  - eapply agree_map; [apply unpack_ok; tauto|intros v w ->; reflexivity].
  - eapply agree_map; [apply pack_size_ok; tauto|intros v w ->; reflexivity].
  - eapply agree_map; [apply coll_ok; auto|reflexivity].
  - eapply agree_map; [apply cart_create_ok; tauto|intros v w ->; reflexivity].
  - cbn. split; auto. constructor; try apply A. reflexivity.
Qed.

(** What follows from the specification alone holds of the model. *)
Theorem refine (Inv : astate -> Prop) (P : sys -> astate -> Prop) :
  (forall k a Q a', Inv a -> legal c tj k a -> spec c tj k a = Ret Q a' -> Inv a') ->
  (forall s a, Abs s a -> Inv a -> P s a) ->
  forall calls s a, Abs s a -> Inv a -> after c tj calls s a P.
Proof.
  intros HI HP. induction calls as [|k r IH]; intros s a A I; cbn [after]; [auto|].
  intros L. pose proof (exec_ok k s a A L) as H. unfold SysSim.agree in H.
  destruct (exec c k s) as [[o s']| | | |]; destruct (spec c tj k a) as [Q a'| |] eqn:Es; try contradiction; auto.
  destruct H as [HQ A']. split; auto. split; [apply (ab_mem A')|]. apply IH; auto. eapply HI; eauto.
Qed.

Theorem abs_behaves s a : Abs s a -> behaves c tj s a.
Proof. intros A calls. apply (refine (fun _ => True)); auto. Qed.
End SysSim3.

Lemma abs_start hj lj rj tj m : Abs tj (sys_start hj lj rj tj m) (a_start m).
Proof.
  constructor; try reflexivity; cbn [a_start a_items a_heads a_made]; unfold INT_MAX; try lia.
  exists [], (fun _ => ORaw), [], (fun _ => []). split; [split; [apply hx_init|intros h []]|].
  split; [intros h; cbn; split; [tauto|congruence]|]. split; [apply linv_init|].
  constructor; cbn; intros; discriminate.
Qed.
