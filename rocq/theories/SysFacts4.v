(** What the calls on arrays of requests do. *)
From Verif Require Import Base HandleSpec HandleExact TypeModel CopyModel SysModel CollModel SysCalls SysSpec SysLog SysReach SysInv SysAbs SysSim SysSim2 SysSim3 SysHist SysFacts SysFacts2 SysFacts3.

Lemma ready_complete a r : inv a -> legal_req r a -> (ready a r <-> complete a r = true).
Proof.
  intros I L. unfold ready, complete. split.
  - intros [-> |(q & E & F)]; [reflexivity|]. rewrite E. apply (finished_report _ _ _ I E) in F. destruct (report q); [apply orb_true_r|congruence].
  - intros H. apply orb_true_iff in H. destruct H as [H|H]; [left; apply Z.eqb_eq; exact H|right]. destruct (req_at a r) as [q|] eqn:E; [|discriminate].
    exists q. split; auto. apply (finished_report _ _ _ I E). destruct (report q); [discriminate|discriminate H].
Qed.
Lemma ready_not a r : inv a -> legal_req r a -> (~ ready a r <-> complete a r = false).
Proof. intros I L. rewrite (ready_complete _ _ I L). destruct (complete a r); split; congruence. Qed.

Lemma same_complete a b x : x = MPI_REQUEST_NULL \/ a_obj b x = a_obj a x -> complete b x = complete a x /\ status_of b x = status_of a x.
Proof.
  intros [-> |E]; [split; reflexivity|]. unfold complete, status_of, req_at. rewrite E. auto.
Qed.
Lemma released_none a : released_all [] a a.
Proof. split; [intros h []|]. split; auto. Qed.
Lemma released_all_trans xs ys a b d : released_all xs a b -> released_all ys b d -> released_all (xs ++ ys) a d.
Proof.
  intros (A1 & A2 & A3 & A4) (B1 & B2 & B3 & B4). split; [|split; [|split; congruence]].
  - intros h H. destruct (in_dec Z.eq_dec h ys) as [Y|Y]; [auto|]. rewrite B2 by auto. apply A1. apply in_app_iff in H. tauto.
  - intros x H. rewrite B2, A2; auto; intros X; apply H; apply in_app_iff; auto.
Qed.
Lemma released_one r a a' : released r a a' -> released_all [r] a a'.
Proof. intros (A & B & C & D & _). split; [intros h [<-|[]]; auto|]. split; [intros x X; apply B; intros ->; apply X; simpl; auto|auto]. Qed.

Lemma test_step a r : inv a -> legal_req r a -> exists a1, s_test r a = Ret (left_of a r, flag_of a r, status_of a r) a1 /\ released_all (complete_of a [r]) a a1.
Proof.
  intros I L. unfold left_of, flag_of, status_of, complete_of. cbn [filter]. destruct L as [-> |(q & E)].
  - exists a. split; [reflexivity|apply released_none].
  - unfold complete. rewrite E, (req_pos _ _ _ I E). cbn [negb andb orb]. destruct (report q) as [w|] eqn:R.
    + exists (freed_at a r). split; [apply (test_done _ _ _ _ I E R)|apply released_one; apply freed_released].
    + exists a. split; [apply (test_pending _ _ _ I E R)|apply released_none].
Qed.
Lemma test_others a r a1 rest x : testable (r :: rest) a -> released_all (complete_of a [r]) a a1 -> In x rest -> x = MPI_REQUEST_NULL \/ a_obj a1 x = a_obj a x.
Proof.
  intros [_ ND] (_ & S & _) Hx. destruct (Z.eq_dec x MPI_REQUEST_NULL) as [->|N]; [auto|right]. apply S. intros X. unfold complete_of in X. apply filter_In in X. destruct X as [[X|[]] _]. subst x.
  cbn [filter] in ND. unfold nonnull in ND. apply Z.eqb_neq in N. rewrite N in ND. cbn [negb] in ND. inversion ND as [|? ? Y _]. apply Y. apply filter_In. rewrite N. auto.
Qed.
Lemma ext_others a a1 r rest : testable (r :: rest) a -> released_all (complete_of a [r]) a a1 ->
  map (left_of a1) rest = map (left_of a) rest /\ map (flag_of a1) rest = map (flag_of a) rest /\ map (status_of a1) rest = map (status_of a) rest /\
  complete_of a1 rest = complete_of a rest /\ (forall x, In x rest -> complete a1 x = complete a x).
Proof.
  intros T R. assert (S : forall x, In x rest -> complete a1 x = complete a x /\ status_of a1 x = status_of a x) by (intros x Hx; apply same_complete; eapply test_others; eauto).
  split; [|split; [|split; [|split]]].
  - apply map_ext_in. intros x Hx. unfold left_of. destruct (S x Hx) as [-> _]. reflexivity.
  - apply map_ext_in. intros x Hx. unfold flag_of. destruct (S x Hx) as [-> _]. reflexivity.
  - apply map_ext_in. intros x Hx. apply S. auto.
  - unfold complete_of. apply filter_ext_in. intros x Hx. destruct (S x Hx) as [-> _]. reflexivity.
  - intros x Hx. apply S. auto.
Qed.
Lemma complete_of_cons a r rest : complete_of a (r :: rest) = complete_of a [r] ++ complete_of a rest.
Proof. unfold complete_of. cbn [filter]. destruct (_ && _); reflexivity. Qed.

Lemma tests_all : forall n rs a, inv a -> testable (firstn n rs) a ->
  exists a', s_tests n rs a = Ret (map (left_of a) (firstn n rs) ++ skipn n rs, map (flag_of a) (firstn n rs), map (status_of a) (firstn n rs)) a' /\
    released_all (complete_of a (firstn n rs)) a a'.
Proof.
  induction n as [|n IH]; intros [|r rs] a I T; try (exists a; split; [reflexivity|apply released_none]).
  cbn [firstn s_tests skipn map app] in *. destruct (test_step a r I) as (a1 & E & R); [apply T; simpl; auto|].
  pose proof (test_keeps _ _ _ _ I E) as I1. destruct (IH rs a1 I1 (testable_next _ _ _ _ _ _ _ T E)) as (a' & E2 & R2).
  destruct (ext_others _ _ _ _ T R) as (X1 & X2 & X3 & X4 & _). exists a'. split.
  - unfold sbind. rewrite E, E2, X1, X2, X3. reflexivity.
  - rewrite complete_of_cons, <- X4. eapply released_all_trans; eauto.
Qed.
Lemma waitall_all : forall n rs a, inv a -> testable (firstn n rs) a -> (forall r, In r (firstn n rs) -> complete a r = true) ->
  exists a', s_waitall n rs a = Ret (map (fun _ => MPI_REQUEST_NULL) (firstn n rs) ++ skipn n rs, map (status_of a) (firstn n rs)) a' /\
    released_all (complete_of a (firstn n rs)) a a'.
Proof.
  induction n as [|n IH]; intros [|r rs] a I T H; try (exists a; split; [reflexivity|apply released_none]).
  cbn [firstn s_waitall skipn map app] in *. destruct (test_step a r I) as (a1 & E & R); [apply T; simpl; auto|].
  pose proof (test_keeps _ _ _ _ I E) as I1. destruct (ext_others _ _ _ _ T R) as (X1 & X2 & X3 & X4 & X5).
  destruct (IH rs a1 I1 (testable_next _ _ _ _ _ _ _ T E)) as (a' & E2 & R2). { intros x Hx. rewrite X5 by auto. apply H. simpl. auto. }
  exists a'. split.
  - unfold s_wait, sbind. rewrite E. unfold left_of, flag_of. rewrite (H r) by (simpl; auto). change (1 =? 0) with false. unfold sret at 1. rewrite E2, X3. reflexivity.
  - rewrite complete_of_cons, <- X4. eapply released_all_trans; eauto.
Qed.
Lemma waitall_none : forall n rs a r, inv a -> testable (firstn n rs) a -> In r (firstn n rs) -> complete a r = false ->
  s_waitall n rs a = SAbort "MPI_Waitall: request not complete, deadlock".
Proof.
  induction n as [|n IH]; intros [|r0 rs] a r I T Hr C; try contradiction.
  cbn [firstn s_waitall] in *. destruct (test_step a r0 I) as (a1 & E & R); [apply T; simpl; auto|].
  pose proof (test_keeps _ _ _ _ I E) as I1. destruct (ext_others _ _ _ _ T R) as (X1 & X2 & X3 & X4 & X5).
  unfold s_wait, sbind. rewrite E. unfold left_of, flag_of. destruct (complete a r0) eqn:C0.
  - change (1 =? 0) with false. unfold sret at 1. destruct Hr as [<-|Hr]; [congruence|].
    rewrite (IH rs a1 r I1 (testable_next _ _ _ _ _ _ _ T E) Hr); [reflexivity|]. rewrite X5; auto.
  - reflexivity.
Qed.
Lemma testany_some : forall b n rs a d r e, inv a -> testable (firstn n rs) a -> firstn n rs = b ++ r :: e -> (forall x, In x b -> complete a x = false) -> complete a r = true ->
  exists a', s_testany n d rs a = Ret (d ++ b ++ MPI_REQUEST_NULL :: skipn (S (length b)) rs, 1, status_of a r) a' /\ released_all (complete_of a [r]) a a'.
Proof.
  induction b as [|x b IH]; intros [|n] [|r0 rs] a d r e I T E Hb C; try discriminate; cbn [firstn] in *.
  - injection E as -> E. cbn [s_testany]. destruct (test_step a r I) as (a1 & Et & R); [apply T; simpl; auto|]. exists a1. split; [|exact R].
    unfold sbind. rewrite Et. unfold flag_of, left_of. rewrite C. reflexivity.
  - injection E as -> E. cbn [s_testany]. destruct (test_step a x I) as (a1 & Et & R); [apply T; simpl; auto|].
    assert (Cx : complete a x = false) by (apply Hb; simpl; auto).
    assert (Ea : a1 = a). { revert Et. unfold s_test, complete in *. destruct (x =? MPI_REQUEST_NULL); [discriminate|]. cbn [orb] in Cx. destruct (req_at a x) as [q|]; [|discriminate]. destruct (report q); [discriminate|]. intros E0. apply Ret_state in E0. exact E0. }
    subst a1. destruct (IH n rs a (d ++ [x]) r e I) as (a' & E2 & R2); auto.
    { split; [intros y Hy; apply T; simpl; auto|]. destruct T as [_ ND]. cbn [filter] in ND. destruct (nonnull x); [inversion ND; auto|auto]. }
    { intros y Hy. apply Hb. simpl. auto. }
    exists a'. split; [|exact R2]. unfold sbind. rewrite Et. unfold flag_of, left_of. rewrite Cx. change (0 =? 0) with true. cbn iota. rewrite E2. rewrite <- app_assoc. reflexivity.
Qed.
Lemma testany_none : forall n rs a d, inv a -> testable (firstn n rs) a -> (forall x, In x (firstn n rs) -> complete a x = false) -> s_testany n d rs a = Ret (d ++ rs, 0, NoWrite) a.
Proof.
  induction n as [|n IH]; intros [|x rs] a d I T Hb; try reflexivity. cbn [firstn s_testany] in *.
  assert (Cx : complete a x = false) by (apply Hb; simpl; auto).
  assert (Et : s_test x a = Ret (x, 0, NoWrite) a).
  { destruct T as [T _]. destruct (T x) as [->|(q & E)]; [simpl; auto|discriminate Cx|]. unfold complete in Cx. rewrite E in Cx. unfold s_test. rewrite E. destruct (x =? MPI_REQUEST_NULL); [discriminate|]. destruct (report q); [discriminate|reflexivity]. }
  unfold sbind. rewrite Et. change (0 =? 0) with true. cbn iota. rewrite IH; auto.
  - rewrite <- app_assoc. reflexivity.
  - split; [intros y Hy; apply T; simpl; auto|]. destruct T as [_ ND]. cbn [filter] in ND. destruct (nonnull x); [inversion ND; auto|auto].
  - intros y Hy. apply Hb. simpl. auto.
Qed.
Lemma all_set_flags a : forall l, all_set (map (flag_of a) l) = if forallb (complete a) l then 1 else 0.
Proof. intros l. unfold all_set. f_equal. induction l as [|x l IH]; cbn; [reflexivity|]. unfold flag_of at 1. destruct (complete a x); cbn; [exact IH|reflexivity]. Qed.
Lemma how_many_flags a : forall l, how_many (map (flag_of a) l) = Z.of_nat (length (filter (complete a) l)).
Proof. intros l. unfold how_many. f_equal. induction l as [|x l IH]; cbn; [reflexivity|]. unfold flag_of at 1. destruct (complete a x); cbn; [f_equal; exact IH|exact IH]. Qed.

Section Facts.
Context {c : cfg} {tj : Z -> tjunk}.
Notation reach := (SysReach.reach c tj).
Notation does := (SysReach.does c tj).

Theorem C25_lemma s a n rs sts : reach s a -> legal_reqs n rs a -> legal_sts n sts ->
  let es := firstn (Z.to_nat n) rs in
  ((forall r, In r es -> ready a r) ->
     exists s' a' sts', does s a (KWaitall n rs sts) (VAll (map (fun _ => MPI_REQUEST_NULL) es ++ skipn (Z.to_nat n) rs) 1 sts') s' a' /\
       wrote_all sts (map (status_of a) es) sts' /\ released_all (filter (fun r => negb (r =? MPI_REQUEST_NULL)) es) a a') /\
  ((exists r, In r es /\ ~ ready a r) -> exec c (KWaitall n rs sts) s = Abort "MPI_Waitall: request not complete, deadlock").
Proof.
  intros R L LS es. pose proof (reach_inv _ _ R) as I. destruct (legal_testable _ _ _ L) as [Ln T]. fold es in T. split.
  - intros H. assert (H' : forall r, In r es -> complete a r = true) by (intros r Hr; apply (ready_complete a r I); [apply T; auto|apply H; auto]).
    destruct (waitall_all (Z.to_nat n) rs a I T H') as (a' & E & Re).
    destruct (run (tj := tj) (KWaitall n rs sts) s a (fun o => exists sts', wrote_all sts (map (status_of a) es) sts' /\ o = VAll (map (fun _ => MPI_REQUEST_NULL) es ++ skipn (Z.to_nat n) rs) 1 sts') a' R) as (o & s' & D & sts' & W & ->).
    + split; auto. + cbn [spec]. unfold smap, sbind. rewrite E. reflexivity.
    + exists s', a', sts'. split; auto. split; auto. replace (filter _ es) with (complete_of a es); [exact Re|]. unfold complete_of. apply filter_ext_in. intros x Hx. rewrite (H' x Hx). apply andb_true_r.
  - intros (r & Hr & Nr). apply (run_abort (tj := tj) _ _ a); auto; [split; auto|]. apply smap_abort. eapply (waitall_none _ _ _ r); eauto. apply (ready_not a r I); auto. apply T; auto.
Qed.

Theorem C26_lemma s a n rs sts : reach s a -> legal_reqs n rs a -> legal_sts n sts ->
  let es := firstn (Z.to_nat n) rs in
  exists f s' a' sts', does s a (KTestall n rs sts) (VAll (map (left_of a) es ++ skipn (Z.to_nat n) rs) f sts') s' a' /\
    (f = 0 \/ f = 1) /\ (f = 1 <-> forall r, In r es -> ready a r) /\
    wrote_all sts (map (status_of a) es) sts' /\ released_all (complete_of a es) a a'.
Proof.
  intros R L LS es. pose proof (reach_inv _ _ R) as I. destruct (legal_testable _ _ _ L) as [Ln T]. fold es in T.
  destruct (tests_all (Z.to_nat n) rs a I T) as (a' & E & Re).
  destruct (run (tj := tj) (KTestall n rs sts) s a (fun o => exists sts', wrote_all sts (map (status_of a) es) sts' /\ o = VAll (map (left_of a) es ++ skipn (Z.to_nat n) rs) (all_set (map (flag_of a) es)) sts') a' R) as (o & s' & D & sts' & W & ->).
  - split; auto. - cbn [spec]. unfold smap, sbind. rewrite E. reflexivity.
  - exists (all_set (map (flag_of a) es)), s', a', sts'. split; auto. rewrite all_set_flags. split; [destruct (forallb _ es); auto|]. split; [|auto].
    destruct (forallb (complete a) es) eqn:F.
    + split; [|reflexivity]. intros _ r Hr. rewrite forallb_forall in F. apply (ready_complete a r I); [apply T; auto|apply F; auto].
    + split; [discriminate|]. intros H. assert (X : forallb (complete a) es = true); [|congruence]. apply forallb_forall. intros r Hr. apply (ready_complete a r I); [apply T; auto|apply H; auto].
Qed.
(** With flag 1 every entry of the array becomes null. *)
Lemma left_all a es : inv a -> (forall r, In r es -> legal_req r a) -> (forall r, In r es -> ready a r) -> map (left_of a) es = map (fun _ => MPI_REQUEST_NULL) es.
Proof. intros I L H. apply map_ext_in. intros r Hr. unfold left_of. rewrite (proj1 (ready_complete a r I (L r Hr)) (H r Hr)). reflexivity. Qed.

Theorem C27_lemma s a n rs ix st : reach s a -> legal_reqs n rs a -> st <> SBad ->
  let es := firstn (Z.to_nat n) rs in
  (forall b r e, es = b ++ r :: e -> (forall x, In x b -> ~ ready a x) -> ready a r ->
     exists s' a' st' rs', rs' = b ++ MPI_REQUEST_NULL :: skipn (S (length b)) rs /\
       does s a (KTestany n rs ix st) (VAny rs' ix 1 st') s' a' /\ does s a (KWaitany n rs ix st) (VAny rs' ix 1 st') s' a' /\
       wrote st (status_of a r) st' /\ released_all (filter (fun r => negb (r =? MPI_REQUEST_NULL)) [r]) a a') /\
  ((forall x, In x es -> ~ ready a x) ->
     (exists s', does s a (KTestany n rs ix st) (VAny rs ix 0 st) s' a) /\
     exec c (KWaitany n rs ix st) s = Abort "MPI_Waitany: no requests complete, deadlock").
Proof.
  intros R L Ns es. pose proof (reach_inv _ _ R) as I. destruct (legal_testable _ _ _ L) as [Ln T]. fold es in T.
  assert (RN : forall x, In x es -> (~ ready a x <-> complete a x = false)) by (intros x Hx; apply (ready_not a x I); apply T; auto).
  split.
  - intros b r e Ee Hb Hr. assert (Hb' : forall x, In x b -> complete a x = false) by (intros x Hx; apply RN; [rewrite Ee; apply in_app_iff; auto|apply Hb; auto]).
    assert (Hr' : complete a r = true) by (apply (ready_complete a r I); [apply T; rewrite Ee; apply in_app_iff; simpl; auto|auto]).
    destruct (testany_some b (Z.to_nat n) rs a [] r e I T Ee Hb' Hr') as (a' & E & Re). cbn [app] in E.
    set (rs' := b ++ MPI_REQUEST_NULL :: skipn (S (length b)) rs) in *.
    destruct (run (tj := tj) (KTestany n rs ix st) s a (fun o => exists st', wrote st (status_of a r) st' /\ o = VAny rs' ix 1 st') a' R) as (o & s' & D & st' & W & ->).
    { split; auto. } { cbn [spec]. unfold smap, sbind. rewrite E. reflexivity. }
    exists s', a', st', rs'. split; auto. split; auto. split; [|split; [auto|]].
    + destruct D as (Lg & Ee' & R' & _). split; [exact Lg|]. split; [|split; [auto|]].
      * cbn [exec] in *. unfold mmap, mbind, ret in *. cbv beta in *. unfold MPI_Waitany, mbind, ret. cbv beta.
        destruct (MPI_Testany n rs ix st s) as [[[[[r1 i1] f1] st1] s1]| | | |] eqn:Et; cbn in Ee'; try discriminate. injection Ee' as -> -> -> -> ->. reflexivity.
      * cbn [spec]. unfold smap, s_waitany, sbind. rewrite E. change (1 =? 0) with false. eexists. split; [reflexivity|]. exists st'. auto.
    + replace (filter _ [r]) with (complete_of a [r]); [exact Re|]. unfold complete_of. cbn [filter]. rewrite Hr', andb_true_r. reflexivity.
  - intros Hn. assert (Hn' : forall x, In x es -> complete a x = false) by (intros x Hx; apply RN; auto).
    pose proof (testany_none (Z.to_nat n) rs a [] I T Hn') as E. cbn [app] in E. split.
    + destruct (run (tj := tj) (KTestany n rs ix st) s a (fun o => exists st', wrote st NoWrite st' /\ o = VAny rs ix 0 st') a R) as (o & s' & D & st' & W & ->).
      { split; auto. } { cbn [spec]. unfold smap, sbind. rewrite E. reflexivity. }
      cbn in W. subst st'. eauto.
    + apply (run_abort (tj := tj) _ _ a); auto; [split; auto|]. apply smap_abort. unfold s_waitany, sbind. rewrite E. reflexivity.
Qed.

Theorem C28_lemma K s a n rs ix sts : K = KTestsome \/ K = KWaitsome -> reach s a -> legal_reqs n rs a -> legal_sts n sts ->
  let es := firstn (Z.to_nat n) rs in
  exists cnt s' a' sts', does s a (K n rs ix sts) (VSome (map (left_of a) es ++ skipn (Z.to_nat n) rs) cnt ix sts') s' a' /\
    cnt = Z.of_nat (length (filter (complete a) es)) /\
    wrote_all sts (map (status_of a) es) sts' /\ released_all (complete_of a es) a a'.
Proof.
  intros HK R L LS es. pose proof (reach_inv _ _ R) as I. destruct (legal_testable _ _ _ L) as [Ln T]. fold es in T.
  destruct (tests_all (Z.to_nat n) rs a I T) as (a' & E & Re).
  destruct (run (tj := tj) (K n rs ix sts) s a (fun o => exists sts', wrote_all sts (map (status_of a) es) sts' /\ o = VSome (map (left_of a) es ++ skipn (Z.to_nat n) rs) (how_many (map (flag_of a) es)) ix sts') a' R) as (o & s' & D & sts' & W & ->).
  - destruct HK as [-> | ->]; split; auto. - destruct HK as [-> | ->]; cbn [spec]; unfold smap, sbind; rewrite E; reflexivity.
  - exists (how_many (map (flag_of a) es)), s', a', sts'. split; auto. split; [apply how_many_flags|auto].
Qed.

(** *** C29 *)
Theorem C29_lemma s a r q : reach s a -> req_at a r = Some q -> finished a q ->
  exists s' a', does s a (KRequestFree r) (VInt MPI_REQUEST_NULL) s' a' /\ released r a a'.
Proof.
  intros R E F. pose proof (reach_inv _ _ R) as I. assert (C : complete a r = true) by (apply (ready_complete a r I); [right; eauto|right; eauto]).
  destruct (does_intro (tj := tj) (KRequestFree r) s a (is VInt MPI_REQUEST_NULL) (freed_at a r) (VInt MPI_REQUEST_NULL) R) as (s' & D); auto.
  - apply smap_run. unfold s_request_free. rewrite (req_pos _ _ _ I E). reflexivity.
  - exists s', (freed_at a r). split; auto. apply freed_released.
Qed.
Theorem C29_null_lemma s a : reach s a -> exists s', does s a (KRequestFree MPI_REQUEST_NULL) (VInt MPI_REQUEST_NULL) s' a.
Proof.
  intros R. destruct (does_intro (tj := tj) (KRequestFree MPI_REQUEST_NULL) s a (is VInt MPI_REQUEST_NULL) a (VInt MPI_REQUEST_NULL) R) as (s' & D); eauto; reflexivity.
Qed.
End Facts.
