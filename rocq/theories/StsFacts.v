(** The calls on arrays of requests with a status array that is too short, or MPI_STATUSES_IGNORE (C25, C26, C28). *)
From Coq Require Import Lia.
From Verif Require Import Base HandleSpec HandleExact ListModel TypeModel CopyModel SysModel CollModel SysCalls SysSpec SysLog SysReach SysInv SysAbs SysSim SysSim2 SysSim3 SysHist SysFacts SysFacts2 SysFacts3 SysFacts4 StsSpec.

Lemma slot_bad sts i : (slots sts <= i)%nat -> sts_get sts (Z.of_nat i) = SBad.
Proof.
  destruct sts as [|l]; cbn [slots sts_get]; intros H; [destruct (Z.eqb_spec (Z.of_nat i) 0); [lia|reflexivity]|].
  unfold arr_get. rewrite Nat2Z.id. destruct (Z.of_nat i <? 0); [reflexivity|]. rewrite (proj2 (nth_error_None l i)) by lia. reflexivity.
Qed.
Lemma slot_good sts i : (i < slots sts)%nat -> sts_get sts (Z.of_nat i) <> SBad.
Proof.
  destruct sts as [|l]; cbn [slots sts_get]; intros H; [destruct (Z.eqb_spec (Z.of_nat i) 0); [discriminate|lia]|].
  destruct (arr_get_ok l (Z.of_nat i)) as (x & E & _); [lia|]. rewrite E. discriminate.
Qed.
Lemma slots_put sts i st : slots (sts_put sts i st) = slots sts.
Proof. destruct sts as [|l], st; try reflexivity. cbn. apply length_list_upd. Qed.

Section Sts.
Context {c : cfg} {tj : Z -> tjunk}.
Notation Abs := (SysAbs.Abs tj).
Notation agree := (SysSim.agree tj).
Notation reach := (SysReach.reach c tj).
Lemma test_bad s a r : Abs s a -> legal_req r a -> complete a r = true -> MPI_Test r SBad s = UB "bad status pointer".
Proof.
  intros A L C. pose proof (test_ok tj s a r SIgnore A L ltac:(discriminate)) as H. unfold SysSim.agree in H.
  assert (F : exists x w a', s_test r a = Ret (x, 1, w) a').
  { unfold s_test, complete in *. destruct (r =? MPI_REQUEST_NULL); [do 3 eexists; reflexivity|]. cbn [orb] in C.
    destruct (req_at a r) as [q|]; [|discriminate]. destruct (report q); [|discriminate]. unfold sbind, s_free, sret. do 3 eexists; reflexivity. }
  destruct F as (x & w & a' & F). rewrite F in H. unfold MPI_Test in *. destruct (r =? MPI_REQUEST_NULL); [reflexivity|].
  unfold mbind at 1 in H. unfold mbind at 1. destruct (handle_ptr r s) as [[p s1]| | | |]; cbn [bind] in *; try contradiction.
  unfold mbind at 1, pure at 1 in H. unfold mbind at 1, pure at 1. destruct (slot_of p) as [p'| | | |]; cbn [bind] in *; try contradiction.
  unfold mbind at 1 in H. unfold mbind at 1. destruct (get_req p' s1) as [[q s2]| | | |]; cbn [bind] in *; try contradiction.
  destruct (negb (r_complete q =? 0)) eqn:Z; [reflexivity|]. cbn [ret] in H. destruct H as [(_ & E & _) _]. cbn [fst snd] in E. rewrite E in Z. discriminate.
Qed.
Lemma test_at_any done r rest sts s a : Abs s a -> legal_req r a -> (complete a r = true -> (length done < slots sts)%nat) ->
  agree (fun x y => let '(rs, sts', fl) := x in let '(r', fl', w) := y in
           rs = done ++ r' :: rest /\ fl = fl' /\
           exists st, sts' = sts_put sts (Z.of_nat (length done)) st /\ wrote (sts_get sts (Z.of_nat (length done))) w st)
    (test_at (done ++ r :: rest) sts (Z.of_nat (length done)) s) (s_test r a).
Proof.
  intros A L LS. unfold test_at. unfold mbind at 1, pure. rewrite arr_get_mid. cbn [bind].
  pose proof (test_ok tj s a r (sts_get sts (Z.of_nat (length done))) A L (fun H => slot_good _ _ (LS H))) as H.
  unfold mbind. unfold SysSim.agree in *.
  destruct (MPI_Test r (sts_get sts (Z.of_nat (length done))) s) as [[[[r1 fl] st1] s']| | | |]; destruct (s_test r a) as [[[r2 fl2] w] a'| |];
    cbn [bind]; try contradiction; auto.
  destruct H as [(E1 & E2 & E3) A']. cbn [fst snd] in *. subst r2 fl2. rewrite arr_set_mid. cbn [bind ret].
  split; [|exact A']. split; [reflexivity|]. split; [reflexivity|]. eauto.
Qed.
Lemma test_at_bad done r rest sts s a : Abs s a -> legal_req r a -> complete a r = true -> (slots sts <= length done)%nat ->
  test_at (done ++ r :: rest) sts (Z.of_nat (length done)) s = UB "bad status pointer".
Proof.
  intros A L C LS. unfold test_at. unfold mbind at 1, pure. rewrite arr_get_mid. cbn [bind]. rewrite (slot_bad _ _ LS). unfold mbind at 1.
  rewrite (test_bad s a r A L C). reflexivity.
Qed.
Lemma wrote_from_any i sts w ws st sts' : ((slots sts <= i)%nat \/ (i < slots sts)%nat) ->
  wrote (sts_get sts (Z.of_nat i)) w st -> wrote_from (S i) (sts_put sts (Z.of_nat i) st) ws sts' -> wrote_from i sts (w :: ws) sts'.
Proof.
  intros [B|G] W H.
  - rewrite (slot_bad _ _ B) in W. destruct sts as [|l]; [exact H|]. cbn [slots] in B.
    assert (st = SBad) as -> by (destruct w; cbn [wrote] in W; congruence || contradiction). cbn [sts_put wrote_from] in *.
    destruct H as (l' & -> & HL & H). exists l'. split; [reflexivity|]. split; [exact HL|]. intros j x E.
    assert (j < length l)%nat by (apply nth_error_Some; congruence). destruct (H j x E) as (y & Ey & Wy). exists y. split; [exact Ey|].
    replace (j <? i)%nat with true by (symmetry; apply Nat.ltb_lt; lia). replace (j <? S i)%nat with true in Wy by (symmetry; apply Nat.ltb_lt; lia). exact Wy.
  - eapply (wrote_from_cons i 0); eauto. destruct sts as [|l]; cbn [slots legal_sts] in *; lia.
Qed.
Lemma test_inv a : forall r x fl w a', inv a -> legal_req r a -> s_test r a = Ret (x, fl, w) a' -> released_all (complete_of a [r]) a a' /\ inv a'.
Proof.
  intros r x fl w a' I L E. destruct (test_step a r I L) as (a1 & E1 & R). rewrite E1 in E. injection E as _ _ _ <-. split; [exact R|exact (test_keeps _ _ _ _ I E1)].
Qed.
(** Entries that are ready have their status. *)
Definition roomy (n done : nat) (rest : list Z) (sts : sargs) (a : astate) : Prop :=
  forall j r, nth_error (firstn n rest) j = Some r -> complete a r = true -> (done + j < slots sts)%nat.
Lemma roomy_next n done r rest sts sts' a a' x fl w : inv a -> testable (r :: firstn n rest) a -> s_test r a = Ret (x, fl, w) a' -> slots sts' = slots sts ->
  roomy (S n) done (r :: rest) sts a -> roomy n (S done) rest sts' a'.
Proof.
  intros I T E S R j y Ej Cj. destruct (test_inv a r x fl w a' I (proj1 T r (or_introl eq_refl)) E) as [Re _].
  destruct (ext_others a a' r (firstn n rest) T Re) as (_ & _ & _ & _ & X). rewrite X in Cj by (eapply nth_error_In; eauto).
  pose proof (R (Datatypes.S j) y Ej Cj). rewrite S. lia.
Qed.
Lemma tests_any (stepf : Z -> Z -> res Z) (step : Z -> Z -> Z) (P : Z -> Z -> Prop) N :
  (forall i acc fl, i < N -> P i acc -> stepf acc fl = Ok (step acc fl) /\ P (i + 1) (step acc fl)) ->
  forall n rest done acc sts s a, Abs s a -> inv a -> (n <= length rest)%nat -> testable (firstn n rest) a ->
  Z.of_nat (length done) + Z.of_nat n <= N -> P (Z.of_nat (length done)) acc ->
  let loop := for_from n (Z.of_nat (length done)) (fun i bs =>
       (let '(reqs, acc, sts) := fst bs in
        let* (reqs, sts, fl) := test_at reqs sts i in
        let* acc := pure (stepf acc fl) in ret (reqs, acc, sts)) (snd bs)) ((done ++ rest, acc, sts), s) in
  (roomy n (length done) rest sts a ->
   agree (fun x y => let '(rs, acc', sts') := x in let '(rs', flags, ws) := y in
           rs = done ++ rs' /\ acc' = fold_left step flags acc /\ wrote_from (length done) sts ws sts') loop (s_tests n rest a)) /\
  (forall j r, nth_error (firstn n rest) j = Some r -> complete a r = true -> (slots sts <= length done + j)%nat -> loop = UB "bad status pointer").
Proof.
  intros ST. induction n as [|n IH]; intros rest done acc sts s a A I L TS HN HP loop.
  - subst loop. split; [|intros [|j] r E; discriminate]. intros _. cbn [for_from s_tests]. destruct rest; cbn [sret SysSim.agree]; (split; [|exact A]); (split; [reflexivity|]); (split; [reflexivity|apply wrote_from_nil]).
  - destruct rest as [|r rest]; [cbn in L; lia|]. subst loop. cbn [for_from s_tests firstn fst snd] in *.
    pose proof (proj1 TS r (or_introl eq_refl)) as Lr.
    assert (STEP : (complete a r = true -> (length done < slots sts)%nat) -> forall G : res (list Z * Z * sargs * sys) -> Prop,
      (forall r' fl w a' s1 sts1, s_test r a = Ret (r', fl, w) a' -> Abs s1 a' -> inv a' -> slots sts1 = slots sts ->
         (forall ws sts', wrote_from (S (length done)) sts1 ws sts' -> wrote_from (length done) sts (w :: ws) sts') ->
         P (Z.of_nat (length done) + 1) (step acc fl) ->
         G (for_from n (Z.of_nat (length done) + 1) (fun i bs =>
             (let '(reqs, acc, sts) := fst bs in
              let* (reqs, sts, fl) := test_at reqs sts i in
              let* acc := pure (stepf acc fl) in ret (reqs, acc, sts)) (snd bs)) (((done ++ [r']) ++ rest, step acc fl, sts1), s1))) ->
      G (bind ((let* (reqs, sts0, fl) := test_at (done ++ r :: rest) sts (Z.of_nat (length done)) in
                let* acc0 := pure (stepf acc fl) in ret (reqs, acc0, sts0)) s)
           (for_from n (Z.of_nat (length done) + 1) (fun i bs =>
             (let '(reqs, acc, sts) := fst bs in
              let* (reqs, sts, fl) := test_at reqs sts i in
              let* acc := pure (stepf acc fl) in ret (reqs, acc, sts)) (snd bs))))).
    { intros Gd G K. pose proof (test_at_any done r rest sts s a A Lr Gd) as H. destruct (test_step a r I Lr) as (a1 & Es & _). rewrite Es in H.
      unfold SysSim.agree in H. unfold mbind at 1.
      destruct (test_at (done ++ r :: rest) sts (Z.of_nat (length done)) s) as [[[[rs sts1] fl] s1]| | | |]; cbn [bind]; try contradiction.
      destruct H as [(-> & -> & st & -> & W) A']. destruct (ST (Z.of_nat (length done)) acc (flag_of a r) ltac:(lia) HP) as (E1 & P1).
      unfold mbind, pure. rewrite E1. cbn [bind ret].
      specialize (K (left_of a r) (flag_of a r) (status_of a r) a1 s1 (sts_put sts (Z.of_nat (length done)) st) Es A' (proj2 (test_inv a r _ _ _ a1 I Lr Es)) (slots_put _ _ _)).
      rewrite <- app_assoc in K. apply K; [|exact P1]. intros ws sts' Wf. eapply wrote_from_any; eauto. lia. }
    split.
    + intros R. change (agree (fun x y => let '(rs, acc', sts') := x in let '(rs', flags, ws) := y in
           rs = done ++ rs' /\ acc' = fold_left step flags acc /\ wrote_from (length done) sts ws sts')
        (bind ((let* (reqs, sts0, fl) := test_at (done ++ r :: rest) sts (Z.of_nat (length done)) in
                let* acc0 := pure (stepf acc fl) in ret (reqs, acc0, sts0)) s)
           (for_from n (Z.of_nat (length done) + 1) (fun i bs =>
             (let '(reqs, acc, sts) := fst bs in
              let* (reqs, sts, fl) := test_at reqs sts i in
              let* acc := pure (stepf acc fl) in ret (reqs, acc, sts)) (snd bs))))
        (sbind (s_test r) (fun '(r', fl, w) => sbind (s_tests n rest) (fun '(rs', fls, ws) => sret (r' :: rs', fl :: fls, w :: ws))) a)).
      apply STEP; [intros C; specialize (R 0%nat r eq_refl C); lia|].
      intros r' fl w a' s1 sts1 Es A' I' Sl Wf P1. unfold sbind at 1. rewrite Es.
      destruct (IH rest (done ++ [r']) (step acc fl) sts1 s1 a' A' I' ltac:(cbn in L; lia) (testable_next _ _ _ _ _ _ _ TS Es)) as [IH1 _].
      { rewrite app_length. cbn [length]. lia. } { rewrite app_length. cbn [length]. replace (Z.of_nat (length done + 1)) with (Z.of_nat (length done) + 1) by lia. exact P1. }
      rewrite app_length in IH1. cbn [length] in IH1. replace (Z.of_nat (length done + 1)) with (Z.of_nat (length done) + 1) in IH1 by lia. rewrite Nat.add_1_r in IH1.
      specialize (IH1 (roomy_next n (length done) r rest sts sts1 a a' r' fl w I TS Es Sl R)). unfold sbind. unfold SysSim.agree in *.
      match type of IH1 with match ?Y with _ => _ end => set (XX := Y) in IH1 end.
      match goal with |- match ?X with _ => _ end => change X with XX end. clearbody XX.
      destruct XX as [[[[rs acc1] sts2] s2]| | | |]; destruct (s_tests n rest a') as [[[rs' flags] ws] a2| |]; try contradiction; auto.
      destruct IH1 as [(-> & -> & W2) A2]. split; [|exact A2]. cbn [fold_left]. split; [rewrite <- app_assoc; reflexivity|].
      split; [reflexivity|]. apply Wf. exact W2.
    + intros j y Ej Cj Bj. destruct (Nat.le_gt_cases (slots sts) (length done)) as [Bd|Gd].
      * destruct (complete a r) eqn:Cr.
        { unfold mbind at 1. rewrite (test_at_bad done r rest sts s a A Lr Cr Bd). reflexivity. }
        destruct j as [|j]; [cbn in Ej; congruence|].
        apply (STEP ltac:(congruence) (fun z => z = UB "bad status pointer")).
        intros r' fl w a' s1 sts1 Es A' I' Sl Wf P1.
        destruct (IH rest (done ++ [r']) (step acc fl) sts1 s1 a' A' I' ltac:(cbn in L; lia) (testable_next _ _ _ _ _ _ _ TS Es)) as [_ IH2].
        { rewrite app_length. cbn [length]. lia. } { rewrite app_length. cbn [length]. replace (Z.of_nat (length done + 1)) with (Z.of_nat (length done) + 1) by lia. exact P1. }
        rewrite app_length in IH2. cbn [length] in IH2. replace (Z.of_nat (length done + 1)) with (Z.of_nat (length done) + 1) in IH2 by lia.
        apply (IH2 j y); [exact Ej| |lia]. destruct (test_inv a r _ _ _ a' I Lr Es) as [Re _].
        destruct (ext_others a a' r (firstn n rest) TS Re) as (_ & _ & _ & _ & X). rewrite X; [exact Cj|eapply nth_error_In; eauto].
      * destruct j as [|j]; [lia|].
        apply (STEP ltac:(auto) (fun z => z = UB "bad status pointer")).
        intros r' fl w a' s1 sts1 Es A' I' Sl Wf P1.
        destruct (IH rest (done ++ [r']) (step acc fl) sts1 s1 a' A' I' ltac:(cbn in L; lia) (testable_next _ _ _ _ _ _ _ TS Es)) as [_ IH2].
        { rewrite app_length. cbn [length]. lia. } { rewrite app_length. cbn [length]. replace (Z.of_nat (length done + 1)) with (Z.of_nat (length done) + 1) by lia. exact P1. }
        rewrite app_length in IH2. cbn [length] in IH2. replace (Z.of_nat (length done + 1)) with (Z.of_nat (length done) + 1) in IH2 by lia.
        apply (IH2 j y); [exact Ej| |lia]. destruct (test_inv a r _ _ _ a' I Lr Es) as [Re _].
        destruct (ext_others a a' r (firstn n rest) TS Re) as (_ & _ & _ & _ & X). rewrite X; [exact Cj|eapply nth_error_In; eauto].
Qed.
Lemma testall_any s a n rs sts : Abs s a -> inv a -> legal_reqs n rs a ->
  (roomy (Z.to_nat n) 0 rs sts a -> agree (tests_rel all_step 1 sts) (MPI_Testall n rs sts s) (s_tests (Z.to_nat n) rs a)) /\
  (forall j r, nth_error (firstn (Z.to_nat n) rs) j = Some r -> complete a r = true -> (slots sts <= j)%nat -> MPI_Testall n rs sts s = UB "bad status pointer").
Proof.
  intros A I L. destruct (legal_testable _ _ _ L) as [L1 TS]. unfold MPI_Testall.
  assert (X : forall e : M (list Z * Z * sargs), forall s, (let* (reqs, flag, sts) := e in ret (reqs, flag, sts)) s = e s).
  { intros e s0. unfold mbind. destruct (e s0) as [[[[x y] z] s1]| | | |]; reflexivity. }
  rewrite X. unfold mfor. unfold for_loop. rewrite Z.sub_0_r.
  destruct (tests_any (fun acc fl => Ok (all_step acc fl)) all_step (fun _ _ => True) (Z.of_nat (Z.to_nat n)) ltac:(auto) (Z.to_nat n) rs [] 1 sts s a A I L1 TS ltac:(cbn [length]; lia) Logic.I) as [T1 T2].
  erewrite for_from_ext; [split|].
  - intros R. eapply agree_weaken; [exact (T1 R)|]. intros [[x1 x2] x3] [[y1 y2] y3] (-> & -> & W). split; [reflexivity|]. split; [reflexivity|]. apply wrote_from_all. exact W.
  - exact T2.
  - intros j [[[rs0 fl] sts0] s0] _. reflexivity.
Qed.
Lemma testsome_any s a n rs ix sts : Abs s a -> inv a -> legal_reqs n rs a ->
  (roomy (Z.to_nat n) 0 rs sts a -> agree (fun x y => let '(rs, o, ix', sts') := x in ix' = ix /\ tests_rel some_step 0 sts (rs, o, sts') y) (MPI_Testsome n rs ix sts s) (s_tests (Z.to_nat n) rs a)) /\
  (forall j r, nth_error (firstn (Z.to_nat n) rs) j = Some r -> complete a r = true -> (slots sts <= j)%nat -> MPI_Testsome n rs ix sts s = UB "bad status pointer").
Proof.
  intros A I L. destruct (legal_testable _ _ _ L) as [L1 TS]. unfold MPI_Testsome.
  destruct (tests_any (fun acc fl => if fl =? 0 then Ok acc else chk_int (acc + 1)) some_step (fun i acc => 0 <= acc <= i) (Z.of_nat (Z.to_nat n))) with (n := Z.to_nat n) (rest := rs) (done := @nil Z) (acc := 0) (sts := sts) (s := s) (a := a) as [T1 T2]; auto.
  { intros i acc fl Hi HP. unfold some_step. destruct (fl =? 0); [split; [reflexivity|lia]|].
    split; [|lia]. apply chk_int_ok. destruct L as (_ & HL & _). unfold INT_MIN. lia. }
  { cbn [length]. lia. } { cbn [length]. lia. }
  assert (E : mfor n (fun i x =>
     let '(reqs, outcount, sts) := x in
     let* (reqs, sts, flag) := test_at reqs sts i in
     if flag =? 0 then ret (reqs, outcount, sts)
     else let* n := pure (chk_int (outcount + 1)) in ret (reqs, n, sts)) (rs, 0, sts) s =
     for_from (Z.to_nat n) (Z.of_nat (@length Z [])) (fun i bs =>
       (let '(reqs, acc, sts) := fst bs in
        let* (reqs, sts, fl) := test_at reqs sts i in
        let* acc := pure (if fl =? 0 then Ok acc else chk_int (acc + 1)) in ret (reqs, acc, sts)) (snd bs)) (([] ++ rs, 0, sts), s)).
  { unfold mfor, for_loop. rewrite Z.sub_0_r. apply for_from_ext. intros j [[[rs0 fl] sts0] s0] _. cbn [fst snd]. unfold mbind.
    destruct (test_at rs0 sts0 j s0) as [[[[x y] z] s1]| | | |]; cbn [bind]; auto.
    destruct (z =? 0); [reflexivity|]. unfold pure. destruct (chk_int (fl + 1)); reflexivity. }
  unfold mbind at 1. rewrite E. split.
  - intros R. specialize (T1 R). unfold SysSim.agree in *.
    match type of T1 with match ?Y with _ => _ end => set (XX := Y) in T1 |- * end. clearbody XX. destruct XX as [[[[x1 x2] x3] s1]| | | |];
    destruct (s_tests (Z.to_nat n) rs a) as [[[y1 y2] y3] a1| |]; cbn [bind ret]; try contradiction; auto.
    destruct T1 as [(-> & -> & W) H2]. split; [|exact H2]. split; [reflexivity|]. split; [reflexivity|]. split; [reflexivity|]. apply wrote_from_all. exact W.
  - intros j r Ej Cj Bj. pose proof (T2 j r Ej Cj Bj) as Q. unfold mbind at 1. match goal with |- bind ?X _ = _ => assert (E0 : X = UB "bad status pointer") by (first [exact Q|rewrite E; exact Q]); rewrite E0 end. reflexivity.
Qed.
(** MPI_Waitall: the entries before the first one that is not ready. *)
Lemma waitall_any : forall n rest done sts s a b e, Abs s a -> inv a -> (n <= length rest)%nat -> testable (firstn n rest) a ->
  firstn n rest = b ++ e -> (forall r, In r b -> complete a r = true) ->
  let loop := for_from n (Z.of_nat (length done)) (fun i bs =>
       (let '(reqs, sts) := fst bs in
        let* (reqs, sts, fl) := test_at reqs sts i in
        if fl =? 0 then pure (Abort "MPI_Waitall: request not complete, deadlock") else ret (reqs, sts)) (snd bs)) ((done ++ rest, sts), s) in
  ((b <> [] -> (slots sts < length done + length b)%nat) -> b <> [] -> loop = UB "bad status pointer") /\
  ((b <> [] -> (length done + length b <= slots sts)%nat) -> forall r e', e = r :: e' -> complete a r = false -> loop = Abort "MPI_Waitall: request not complete, deadlock").
Proof.
  induction n as [|n IH]; intros rest done sts s a b e A I L TS Eb Hb loop.
  { destruct b, e; try discriminate Eb. split; [congruence|intros _ r e' X; discriminate]. }
  destruct rest as [|r rest]; [cbn in L; lia|]. subst loop. cbn [for_from firstn fst snd] in *. pose proof (proj1 TS r (or_introl eq_refl)) as Lr.
  destruct b as [|r0 b]; cbn [app length] in *.
  - split; [congruence|]. intros _ r1 e' -> C. injection Eb as <- _. unfold mbind at 1.
    pose proof (test_at_any done r rest sts s a A Lr ltac:(congruence)) as H. destruct (test_step a r I Lr) as (a1 & Es & _). rewrite Es in H.
    unfold SysSim.agree in H. destruct (test_at (done ++ r :: rest) sts (Z.of_nat (length done)) s) as [[[[rs sts1] fl] s1]| | | |]; try contradiction.
    destruct H as [(-> & -> & _) _]. cbn [bind]. unfold flag_of. rewrite C. reflexivity.
  - injection Eb as <- Eb. assert (C : complete a r = true) by (apply Hb; simpl; auto).
    destruct (Nat.le_gt_cases (slots sts) (length done)) as [Bd|Gd].
    + split; [|intros B; specialize (B ltac:(discriminate)); lia]. intros _ _. unfold mbind at 1. rewrite (test_at_bad done r rest sts s a A Lr C Bd). reflexivity.
    + pose proof (test_at_any done r rest sts s a A Lr ltac:(auto)) as H. destruct (test_step a r I Lr) as (a1 & Es & Re). rewrite Es in H.
      unfold SysSim.agree in H. destruct (test_at (done ++ r :: rest) sts (Z.of_nat (length done)) s) as [[[[rs sts1] fl] s1]| | | |] eqn:ET; try contradiction.
      destruct H as [(-> & -> & st & -> & W) A']. assert (F : (flag_of a r =? 0) = false) by (unfold flag_of; rewrite C; reflexivity).
      destruct (ext_others a a1 r (firstn n rest) TS Re) as (_ & _ & _ & _ & X).
      destruct (IH rest (done ++ [left_of a r]) (sts_put sts (Z.of_nat (length done)) st) s1 a1 b e A' (test_keeps _ _ _ _ I Es) ltac:(cbn in L; lia) (testable_next _ _ _ _ _ _ _ TS Es) Eb) as [I1 I2].
      { intros y Hy. rewrite X; [apply Hb; simpl; auto|rewrite Eb; apply in_app_iff; auto]. }
      rewrite app_length, slots_put, <- app_assoc in I1, I2. cbn [length app] in I1, I2. replace (Z.of_nat (length done + 1)) with (Z.of_nat (length done) + 1) in I1, I2 by lia.
      split.
      * intros B _. specialize (B ltac:(discriminate)). unfold mbind at 1; rewrite ET; cbn [bind]; rewrite F; cbn [bind ret]. apply I1; [intros _; clear - B; lia|]. destruct b; [cbn in B; clear - B Gd; lia|discriminate].
      * intros B y e' -> Cy. specialize (B ltac:(discriminate)). unfold mbind at 1; rewrite ET; cbn [bind]; rewrite F; cbn [bind ret]. apply (I2 ltac:(intros _; clear - B; lia) y e' eq_refl). rewrite X; [exact Cy|rewrite Eb; apply in_app_iff; simpl; auto].
Qed.

Theorem C25_any_lemma s a n rs sts b e : reach s a -> legal_reqs n rs a -> firstn (Z.to_nat n) rs = b ++ e ->
  (forall r, In r b -> ready a r) -> (forall r e', e = r :: e' -> ~ ready a r) ->
  ((slots sts < length b)%nat -> exec c (KWaitall n rs sts) s = UB "bad status pointer") /\
  ((length b <= slots sts)%nat -> e <> [] -> exec c (KWaitall n rs sts) s = Abort "MPI_Waitall: request not complete, deadlock") /\
  ((length b <= slots sts)%nat -> e = [] ->
     exists s' a' sts', does c tj s a (KWaitall n rs sts) (VAll (map (fun _ => MPI_REQUEST_NULL) b ++ skipn (Z.to_nat n) rs) 1 sts') s' a' /\
       wrote_all sts (map (status_of a) b) sts' /\ released_all (filter (fun r => negb (r =? MPI_REQUEST_NULL)) b) a a').
Proof.
  intros R L Ee Hb He. pose proof (reach_inv _ _ R) as I. destruct (legal_testable _ _ _ L) as [Ln T].
  pose proof (reach_abs _ _ R) as A.
  destruct (waitall_any (Z.to_nat n) rs [] sts s a b e A I Ln T Ee) as [W1 W2].
  { intros r Hr. apply (ready_complete a r I); [apply T; rewrite Ee; apply in_app_iff; auto|auto]. }
  cbn [length app Nat.add] in W1, W2. assert (X : forall z, MPI_Waitall n rs sts s = z -> exec c (KWaitall n rs sts) s = bind z (fun x => Ok (let '(rs, sts) := fst x in VAll rs 1 sts, snd x))).
  { intros z <-. cbn [exec]. unfold mmap, mbind, ret. destruct (MPI_Waitall n rs sts s) as [[[? ?] ?]| | | |]; reflexivity. }
  unfold MPI_Waitall, mfor, for_loop in X. rewrite Z.sub_0_r in X. split; [|split].
  - intros B. rewrite (X _ (W1 ltac:(auto) ltac:(destruct b; [cbn in B; lia|discriminate]))). reflexivity.
  - intros B Ne. destruct e as [|r e]; [congruence|]. assert (C : complete a r = false).
    { apply (ready_not a r I); [apply T; rewrite Ee; apply in_app_iff; simpl; auto|apply (He r e); auto]. }
    rewrite (X _ (W2 ltac:(auto) r e eq_refl C)). reflexivity.
  - intros B ->. rewrite app_nil_r in Ee. assert (LS : legal_sts n sts).
    { pose proof (f_equal (@length Z) Ee) as Q. rewrite firstn_length_le in Q by lia. destruct sts; cbn [slots legal_sts] in *; lia. }
    destruct (C25_lemma s a n rs sts R L LS) as [H _]. rewrite Ee in H. apply H. exact Hb.
Qed.
Theorem C26_any_lemma s a n rs sts : reach s a -> legal_reqs n rs a ->
  let es := firstn (Z.to_nat n) rs in
  ((exists i r, nth_error es i = Some r /\ ready a r /\ (slots sts <= i)%nat) -> exec c (KTestall n rs sts) s = UB "bad status pointer") /\
  ((forall i r, nth_error es i = Some r -> ready a r -> (i < slots sts)%nat) ->
     exists f s' a' sts', exec c (KTestall n rs sts) s = Ok (VAll (map (left_of a) es ++ skipn (Z.to_nat n) rs) f sts', s') /\
       (f = 0 \/ f = 1) /\ (f = 1 <-> forall r, In r es -> ready a r) /\
       wrote_all sts (map (status_of a) es) sts' /\ released_all (complete_of a es) a a' /\ Abs s' a').
Proof.
  intros R L es. pose proof (reach_inv _ _ R) as I. destruct (legal_testable _ _ _ L) as [Ln T]. fold es in T.
  pose proof (reach_abs _ _ R) as A. destruct (testall_any s a n rs sts A I L) as [T1 T2]. fold es in T2.
  assert (RC : forall i r, nth_error es i = Some r -> (ready a r <-> complete a r = true)).
  { intros i r E. apply (ready_complete a r I). apply T. eapply nth_error_In; eauto. }
  split.
  - intros (i & r & Ei & Ri & Bi). cbn [exec]. unfold mmap, mbind. rewrite (T2 i r Ei (proj1 (RC i r Ei) Ri) Bi). reflexivity.
  - intros H. assert (Ro : roomy (Z.to_nat n) 0 rs sts a) by (intros i r Ei Ci; cbn [Nat.add]; apply (H i r Ei); apply (RC i r Ei); exact Ci).
    specialize (T1 Ro). destruct (tests_all (Z.to_nat n) rs a I T) as (a' & E & Re). rewrite E in T1. unfold SysSim.agree in T1. cbn [exec]. unfold mmap, mbind.
    destruct (MPI_Testall n rs sts s) as [[[[rs' f] sts'] s']| | | |]; try contradiction. destruct T1 as [(-> & -> & W) A']. rewrite fold_all.
    change (if forallb (fun f0 => negb (f0 =? 0)) (map (flag_of a) (firstn (Z.to_nat n) rs)) then 1 else 0) with (all_set (map (flag_of a) es)). cbn [bind ret].
    do 4 eexists. split; [reflexivity|]. rewrite all_set_flags. split; [destruct (forallb _ es); auto|]. split; [|split; [exact W|split; [exact Re|exact A']]].
    destruct (forallb (complete a) es) eqn:F.
    + split; [|reflexivity]. intros _ r Hr. rewrite forallb_forall in F. apply (ready_complete a r I); [apply T; auto|apply F; auto].
    + split; [discriminate|]. intros K. assert (X : forallb (complete a) es = true); [|congruence]. apply forallb_forall. intros r Hr. apply (ready_complete a r I); [apply T; auto|apply K; auto].
Qed.
Theorem C28_any_lemma K s a n rs ix sts : K = KTestsome \/ K = KWaitsome -> reach s a -> legal_reqs n rs a ->
  let es := firstn (Z.to_nat n) rs in
  ((exists i r, nth_error es i = Some r /\ ready a r /\ (slots sts <= i)%nat) -> exec c (K n rs ix sts) s = UB "bad status pointer") /\
  ((forall i r, nth_error es i = Some r -> ready a r -> (i < slots sts)%nat) ->
     exists cnt s' a' sts', exec c (K n rs ix sts) s = Ok (VSome (map (left_of a) es ++ skipn (Z.to_nat n) rs) cnt ix sts', s') /\
       cnt = Z.of_nat (length (filter (complete a) es)) /\
       wrote_all sts (map (status_of a) es) sts' /\ released_all (complete_of a es) a a' /\ Abs s' a').
Proof.
  intros HK R L es. pose proof (reach_inv _ _ R) as I. destruct (legal_testable _ _ _ L) as [Ln T]. fold es in T.
  pose proof (reach_abs _ _ R) as A. destruct (testsome_any s a n rs ix sts A I L) as [T1 T2]. fold es in T2.
  assert (RC : forall i r, nth_error es i = Some r -> (ready a r <-> complete a r = true)).
  { intros i r E. apply (ready_complete a r I). apply T. eapply nth_error_In; eauto. }
  assert (XK : exec c (K n rs ix sts) s = mmap (fun x => let '(rs, o, ix, sts) := x in VSome rs o ix sts) (MPI_Testsome n rs ix sts) s) by (destruct HK as [-> | ->]; reflexivity).
  rewrite XK. split.
  - intros (i & r & Ei & Ri & Bi). unfold mmap, mbind. rewrite (T2 i r Ei (proj1 (RC i r Ei) Ri) Bi). reflexivity.
  - intros H. assert (Ro : roomy (Z.to_nat n) 0 rs sts a) by (intros i r Ei Ci; cbn [Nat.add]; apply (H i r Ei); apply (RC i r Ei); exact Ci).
    specialize (T1 Ro). destruct (tests_all (Z.to_nat n) rs a I T) as (a' & E & Re). rewrite E in T1. unfold SysSim.agree in T1. unfold mmap, mbind.
    destruct (MPI_Testsome n rs ix sts s) as [[[[[rs' o] ix'] sts'] s']| | | |]; try contradiction. destruct T1 as [(-> & -> & -> & W) A']. rewrite fold_some. cbn [bind ret].
    do 4 eexists. split; [reflexivity|]. rewrite Z.add_0_l. split; [apply how_many_flags|]. split; [exact W|]. split; [exact Re|exact A'].
Qed.
End Sts.
