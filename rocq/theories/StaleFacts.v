(** Proof that results do not depend on what uninitialised storage holds (C87). *)
From Verif Require Import Base HandleModel HandleExact ListModel TypeModel CopyModel SysModel CollModel SysCalls SysSpec SysLog SysReach SysInv SysAbs SysSim SysSim3 SysHist SysFacts SysFacts2 SysFinal FlowSpec.

(** A status is written with definite values. *)
Definition sure (w : write) : Prop := match w with NoWrite => True | Write s t => s <> None /\ t <> None end.

Lemma smap_inv {A} (f : A -> out -> Prop) (e : sp A) a Q a' : smap f e a = Ret Q a' -> exists x, e a = Ret x a' /\ Q = f x.
Proof. unfold smap, sbind. destruct (e a) as [x b| |]; try discriminate. intros E. injection E as <- <-. eauto. Qed.

Lemma wrote_bare st w o o' : wrote st w o -> wrote st w o' -> bare_arg o = bare_arg o'.
Proof.
  destruct w as [|s t]; cbn; [congruence|]. destruct st as [|x|]; [congruence| |congruence].
  intros (y & -> & _ & _ & E1 & E2) (y' & -> & _ & _ & F1 & F2). cbn. unfold bare. congruence.
Qed.
Lemma wrote_sure st w o o' : sure w -> wrote st w o -> wrote st w o' -> o = o'.
Proof.
  destruct w as [|s t]; cbn; [congruence|]. destruct st as [|x|]; [congruence| |congruence].
  intros [S T]. destruct s as [s|], t as [t|]; try congruence.
  intros (y & -> & A & B & E1 & E2) (y' & -> & A' & B' & F1 & F2).
  destruct y, y'; cbn in *. rewrite <- (A s eq_refl) in A'. rewrite <- (B t eq_refl) in B'. rewrite (A' _ eq_refl), (B' _ eq_refl). congruence.
Qed.
Lemma lists_eq {A} : forall (l l' : list A), length l = length l' -> (forall i x y, nth_error l i = Some x -> nth_error l' i = Some y -> x = y) -> l = l'.
Proof.
  induction l as [|x l IH]; intros [|y l'] L H; try discriminate L; [reflexivity|].
  f_equal; [exact (H 0%nat x y eq_refl eq_refl)|]. apply IH; [cbn in L; lia|]. intros i u v. exact (H (S i) u v).
Qed.
Lemma nth_len {A B} (l : list A) (l' : list B) i x : length l = length l' -> nth_error l i = Some x -> exists y, nth_error l' i = Some y.
Proof.
  intros L E. destruct (nth_error l' i) as [y|] eqn:F; [eauto|]. apply nth_error_None in F.
  assert (nth_error l i <> None) by congruence. apply nth_error_Some in H. lia.
Qed.
Lemma wrote_all_bare sts ws o o' : wrote_all sts ws o -> wrote_all sts ws o' -> bare_args o = bare_args o'.
Proof.
  destruct sts as [|l]; cbn; [congruence|]. intros (k & -> & L & H) (k' & -> & L' & H'). cbn. f_equal.
  apply lists_eq; [rewrite !map_length; congruence|]. intros i x y. rewrite !nth_error_map.
  destruct (nth_error k i) as [u|] eqn:E; [|discriminate]. destruct (nth_error k' i) as [v|] eqn:F; [|discriminate].
  cbn. intros X Y. injection X as <-. injection Y as <-. destruct (nth_len _ l _ _ L E) as (z & G).
  destruct (H _ _ G) as (u' & E' & W). destruct (H' _ _ G) as (v' & F' & W'). rewrite E in E'. rewrite F in F'. injection E' as <-. injection F' as <-.
  pose proof (wrote_bare _ _ _ _ W W') as X. cbn in X. congruence.
Qed.
Lemma wrote_all_sure sts ws o o' : Forall sure ws -> wrote_all sts ws o -> wrote_all sts ws o' -> o = o'.
Proof.
  intros S. destruct sts as [|l]; cbn; [congruence|]. intros (k & -> & L & H) (k' & -> & L' & H'). cbn. f_equal.
  apply lists_eq; [congruence|]. intros i u v E F. destruct (nth_len _ l _ _ L E) as (z & G).
  destruct (H _ _ G) as (u' & E' & W). destruct (H' _ _ G) as (v' & F' & W'). rewrite E in E'. rewrite F in F'. injection E' as <-. injection F' as <-.
  assert (Si : sure (nth i ws NoWrite)).
  { destruct (nth_in_or_default i ws NoWrite) as [X|X]; [|rewrite X; exact Logic.I]. rewrite Forall_forall in S. apply S, X. }
  pose proof (wrote_sure _ _ _ _ Si W W') as X. congruence.
Qed.

(** Outputs of one call agree up to the sources and tags of statuses. *)
Lemma spec_bare c tj k a Q a' o o' : spec c tj k a = Ret Q a' -> Q o -> Q o' -> bare_out o = bare_out o'.
Proof.
  destruct k; cbn [spec]; intros E;
    try (apply smap_inv in E; destruct E as (x & _ & ->); cbv beta; unfold is, unit_out; repeat match goal with x : (_ * _)%type |- _ => destruct x end);
    try (injection E as <- _); try (intros -> ->; reflexivity);
    intros (y & W & ->) (y' & W' & ->); cbn [bare_out]; f_equal; eauto using wrote_bare, wrote_all_bare.
  pose proof (wrote_bare _ _ _ _ W W') as B. destruct y, y'; cbn in B |- *; congruence || reflexivity || (unfold bare in *; cbn in *; congruence).
Qed.

(** Requests that are not completed sends. *)
Lemma report_sure q w : report q = Some w -> (match q with QSent _ | QNullSend => False | _ => True end) -> sure w.
Proof. destruct q; cbn; intros E N; try contradiction N; try discriminate E; injection E as <-; split; discriminate. Qed.
Lemma test_sure r a x a' : s_test r a = Ret x a' -> ~ send_done a r -> sure (snd x).
Proof.
  unfold s_test. destruct (r =? MPI_REQUEST_NULL); [intros E _; injection E as <- _; split; discriminate|].
  unfold send_done. destruct (req_at a r) as [q|]; [|discriminate]. destruct (report q) as [w|] eqn:R.
  - intros E N. injection E as <- _. cbn. apply (report_sure q w R). destruct q; tauto.
  - intros E _. injection E as <- _. exact Logic.I.
Qed.
Lemma test_mono r a x a' r' : s_test r a = Ret x a' -> send_done a' r' -> send_done a r'.
Proof.
  unfold s_test. destruct (r =? MPI_REQUEST_NULL); [intros E; injection E as _ <-; auto|].
  destruct (req_at a r) as [q|]; [|discriminate]. destruct (report q) as [w|].
  - intros E. injection E as _ <-. unfold send_done, req_at. cbn. unfold upd. destruct (r' =? r); [contradiction|auto].
  - intros E. injection E as _ <-. auto.
Qed.
Lemma wait_sure w0 r a x a' : s_wait w0 r a = Ret x a' -> ~ send_done a r -> sure (snd x).
Proof.
  unfold s_wait, sbind. destruct (s_test r a) as [[[r' f] w] b| |] eqn:E; try discriminate. destruct (f =? 0); [discriminate|].
  intros X N. injection X as <- _. exact (test_sure _ _ _ _ E N).
Qed.
Lemma wait_mono w0 r a x a' r' : s_wait w0 r a = Ret x a' -> send_done a' r' -> send_done a r'.
Proof.
  unfold s_wait, sbind. destruct (s_test r a) as [[[r2 f] w] b| |] eqn:E; try discriminate. destruct (f =? 0); [discriminate|].
  intros X. injection X as _ <-. exact (test_mono _ _ _ _ _ E).
Qed.
Lemma testany_sure : forall n rs d a x a', s_testany n d rs a = Ret x a' -> (forall r, In r (firstn n rs) -> ~ send_done a r) -> sure (snd x).
Proof.
  induction n as [|n IH]; intros rs d a x a'; cbn [s_testany]; [intros E _; injection E as <- _; exact Logic.I|].
  destruct rs as [|r rs]; [intros E _; injection E as <- _; exact Logic.I|]. unfold sbind.
  destruct (s_test r a) as [[[r' f] w] b| |] eqn:E1; try discriminate. destruct (f =? 0); cbn [firstn].
  - intros E2 N. eapply IH; [exact E2|]. intros y Hy D. apply (N y (or_intror Hy)), (test_mono _ _ _ _ _ E1 D).
  - intros E2 N. injection E2 as <- _. exact (test_sure _ _ _ _ E1 (N r (or_introl eq_refl))).
Qed.
Lemma tests_sure : forall n rs a x a', s_tests n rs a = Ret x a' -> (forall r, In r (firstn n rs) -> ~ send_done a r) -> Forall sure (snd x).
Proof.
  induction n as [|n IH]; intros rs a x a'; cbn [s_tests]; [intros E _; injection E as <- _; constructor|].
  destruct rs as [|r rs]; [intros E _; injection E as <- _; constructor|]. unfold sbind.
  destruct (s_test r a) as [[[r' f] w] b| |] eqn:E1; try discriminate.
  destruct (s_tests n rs b) as [[[r2 f2] w2] b2| |] eqn:E2; try discriminate.
  intros X N. injection X as <- _. cbn [firstn] in N. constructor; [exact (test_sure _ _ _ _ E1 (N r (or_introl eq_refl)))|].
  apply (IH _ _ _ _ E2). intros y Hy D. apply (N y (or_intror Hy)), (test_mono _ _ _ _ _ E1 D).
Qed.
Lemma waitall_sure : forall n rs a x a', s_waitall n rs a = Ret x a' -> (forall r, In r (firstn n rs) -> ~ send_done a r) -> Forall sure (snd x).
Proof.
  induction n as [|n IH]; intros rs a x a'; cbn [s_waitall]; [intros E _; injection E as <- _; constructor|].
  destruct rs as [|r rs]; [intros E _; injection E as <- _; constructor|]. unfold sbind.
  destruct (s_wait _ r a) as [[r' w] b| |] eqn:E1; try discriminate.
  destruct (s_waitall n rs b) as [[r2 w2] b2| |] eqn:E2; try discriminate.
  intros X N. injection X as <- _. cbn [firstn] in N. constructor; [exact (wait_sure _ _ _ _ _ E1 (N r (or_introl eq_refl)))|].
  apply (IH _ _ _ _ E2). intros y Hy D. apply (N y (or_intror Hy)), (wait_mono _ _ _ _ _ _ E1 D).
Qed.
Lemma iprobe_sure so g cm a x a' : s_iprobe so g cm a = Ret x a' -> sure (snd x).
Proof.
  unfold s_iprobe. destruct (negb _); [discriminate|]. destruct (comm_at a cm) as [k|]; [|discriminate].
  destruct (first_such _ _) as [[[? p] ?]|]; intros E; injection E as <- _; cbn; [split; discriminate|exact Logic.I].
Qed.

#[local] Arguments pr_fresh {sd a cm k id h tag before p rest m a'}.
#[local] Arguments pr_req {sd a cm k id h tag before p rest m a'}.
#[local] Arguments pr_partner {sd a cm k id h tag before p rest m a'}.
#[local] Arguments pr_rest {sd a cm k id h tag before p rest m a'}.
#[local] Arguments qd_fresh {sd a cm k p a'}.
#[local] Arguments qd_req {sd a cm k p a'}.
#[local] Arguments qd_rest {sd a cm k p a'}.
Section Stale.
Variable c : cfg.

Lemma irecv_not_send a b n t so g cm h a' : inv a -> s_irecv c b n t so g cm a = Ret h a' -> ~ send_done a' h /\ exists q, req_at a' h = Some q.
Proof.
  intros I E. destruct (irecv_inv _ _ _ _ _ _ _ _ _ I E) as [(_ & Ad)|(_ & k & Ek & [(bf & p & e & m & Ea & _ & P)|(_ & Q)])]; unfold send_done.
  - destruct Ad as (_ & _ & O & _). unfold req_at. rewrite O. eauto.
  - rewrite (pr_req P). cbn. eauto.
  - pose proof (qd_req Q) as X. cbn in X. rewrite X. eauto.
Qed.
Lemma isend_not_send a b n t d g cm h a' r q : inv a -> s_isend c b n t d g cm a = Ret h a' -> req_at a r = Some q -> ~ send_done a r ->
  ~ send_done a' r /\ (exists q, req_at a' r = Some q) /\ r <> h.
Proof.
  intros I E Er N. unfold send_done in *.
  assert (D : forall h, a_obj a h = None -> r <> h). { intros h0 X ->. unfold req_at in Er. rewrite X in Er. discriminate. }
  destruct (isend_inv _ _ _ _ _ _ _ _ _ I E) as [(_ & Ad)|(_ & k & Ek & [(bf & p & e & m & Ea & _ & P)|(_ & Q)])].
  - destruct Ad as (_ & F & _ & O & _). pose proof (D _ F) as Nh. unfold req_at in *. rewrite (O r Nh). split; [exact N|]. split; [eauto|exact Nh].
  - pose proof (D _ (proj2 (pr_fresh P))) as Nh. destruct (Z.eq_dec r (p_req p)) as [->|Np].
    + rewrite (pr_partner P). cbn. split; [tauto|]. split; [eauto|exact Nh].
    + assert (Nc : r <> cm). { intros ->. unfold req_at in Er. rewrite (comm_obj _ _ _ Ek) in Er. discriminate. }
      unfold req_at in *. rewrite (pr_rest P r Nh Nc Np). split; [exact N|]. split; [eauto|exact Nh].
  - pose proof (D _ (proj2 (qd_fresh Q))) as Nh. cbn in Nh.
    assert (Nc : r <> cm). { intros ->. unfold req_at in Er. rewrite (comm_obj _ _ _ Ek) in Er. discriminate. }
    unfold req_at in *. rewrite (qd_rest Q r Nh Nc). split; [exact N|]. split; [eauto|exact Nh].
Qed.
Lemma recv_sure a b n t so g cm w a' : inv a -> s_recv c b n t so g cm a = Ret w a' -> sure w.
Proof.
  intros I. unfold s_recv, sbind. destruct (s_irecv c b n t so g cm a) as [h a1| |] eqn:E; try discriminate.
  destruct (s_wait wait_msg h a1) as [[r w'] a2| |] eqn:F; try discriminate. intros X. injection X as <- _.
  exact (wait_sure _ _ _ _ _ F (proj1 (irecv_not_send _ _ _ _ _ _ _ _ _ I E))).
Qed.
Lemma sendrecv_sure a sb sn sty d sg rb rn rt so rg cm w a' : inv a ->
  s_sendrecv c sb sn sty d sg rb rn rt so rg cm a = Ret w a' -> sure w.
Proof.
  intros I. unfold s_sendrecv, s_send, sbind. destruct (s_irecv c rb rn rt so rg cm a) as [h a1| |] eqn:E; try discriminate.
  destruct (s_isend c sb sn sty d sg cm a1) as [h2 a2| |] eqn:E2; try discriminate.
  destruct (s_wait wait_msg h2 a2) as [[r2 w2] a3| |] eqn:F; try discriminate. cbn [sret].
  destruct (s_wait wait_msg h a3) as [[r w'] a4| |] eqn:G; try discriminate. intros X. injection X as <- _.
  destruct (irecv_not_send _ _ _ _ _ _ _ _ _ I E) as (N & q & Eq).
  destruct (isend_not_send _ _ _ _ _ _ _ _ _ _ _ (irecv_keeps _ _ _ _ _ _ _ _ _ _ I E) E2 Eq N) as (N2 & _ & _).
  apply (wait_sure _ _ _ _ _ G). intros D. exact (N2 (wait_mono _ _ _ _ _ _ F D)).
Qed.

(** Where no completed send is reported, outputs agree altogether. *)
Lemma spec_exact tj k a Q a' o o' : inv a -> no_send_reported k a -> spec c tj k a = Ret Q a' -> Q o -> Q o' -> o = o'.
Proof.
  intros I N. destruct k; cbn [spec no_send_reported] in *; intros E;
    try (apply smap_inv in E; destruct E as (x & E & ->); cbv beta; unfold is, unit_out; repeat match goal with x : (_ * _)%type |- _ => destruct x end);
    try (injection E as <- _); try (intros -> ->; reflexivity);
    intros (y & W & ->) (y' & W' & ->); f_equal.
  - f_equal. exact (wrote_sure _ _ _ _ (recv_sure _ _ _ _ _ _ _ _ _ I E) W W').
  - exact (wrote_sure _ _ _ _ (sendrecv_sure _ _ _ _ _ _ _ _ _ _ _ _ _ _ I E) W W').
  - exact (wrote_sure _ _ _ _ (test_sure _ _ _ _ E N) W W').
  - exact (wrote_sure _ _ _ _ (wait_sure _ _ _ _ _ E N) W W').
  - exact (wrote_sure _ _ _ _ (testany_sure _ _ _ _ _ _ E N) W W').
  - unfold s_waitany, sbind in E. destruct (s_testany _ _ _ a) as [[[rs f] w'] a1| |] eqn:F; try discriminate. destruct (f =? 0); [discriminate|].
    injection E as <- <- _. exact (wrote_sure _ _ _ _ (testany_sure _ _ _ _ _ _ F N) W W').
  - exact (wrote_all_sure _ _ _ _ (tests_sure _ _ _ _ _ E N) W W').
  - exact (wrote_all_sure _ _ _ _ (waitall_sure _ _ _ _ _ E N) W W').
  - exact (wrote_all_sure _ _ _ _ (tests_sure _ _ _ _ _ E N) W W').
  - exact (wrote_all_sure _ _ _ _ (tests_sure _ _ _ _ _ E N) W W').
  - exact (wrote_sure _ _ _ _ (iprobe_sure _ _ _ _ _ _ E) W W').
  - unfold s_probe, sbind in E. destruct (s_iprobe _ _ _ a) as [[f w'] a1| |] eqn:F; try discriminate. destruct (f =? 0); [discriminate|].
    injection E as <- _. exact (wrote_sure _ _ _ _ (iprobe_sure _ _ _ _ _ _ F) W W').
Qed.

Definition same_mem (s s' : sys) : Prop := s_mem s = s_mem s'.
(** Two runs of a legal program whose specification is the same. *)
Lemma same_run (P : call -> astate -> Prop) (Z : out -> out -> Prop) tj tj' :
  (forall k a Q a' o o', inv a -> P k a -> spec c tj k a = Ret Q a' -> Q o -> Q o' -> Z o o') ->
  forall ks, (forall k a, In k ks -> spec c tj k a = spec c tj' k a /\ (legal c tj k a -> legal c tj' k a)) ->
  forall a s s', reach c tj s a -> reach c tj' s' a -> all_along c tj (fun k a => legal c tj k a /\ P k a) ks a ->
  Forall2 Z (fst (FlowSpec.run c ks s)) (fst (FlowSpec.run c ks s')) /\
  ends same_mem (snd (FlowSpec.run c ks s)) (snd (FlowSpec.run c ks s')) /\ defined (snd (FlowSpec.run c ks s)).
Proof.
  intros HZ. induction ks as [|k ks IH]; intros HT a s s' R R' A.
  - cbn. split; [constructor|]. split; [|exact Logic.I]. unfold same_mem.
    rewrite (ab_mem (reach_abs _ _ R)), (ab_mem (reach_abs _ _ R')). reflexivity.
  - cbn [all_along] in A. destruct A as [[L Pk] A]. destruct (HT k a (or_introl eq_refl)) as [T TL]. specialize (TL L).
    cbn [FlowSpec.run].
    pose proof (exec_ok c tj k s a (reach_abs _ _ R) L) as H. pose proof (exec_ok c tj' k s' a (reach_abs _ _ R') TL) as H'.
    unfold agree in H, H'. rewrite <- T in H'.
    destruct (spec c tj k a) as [Q a'|w|n w] eqn:Es.
    + destruct (exec c k s) as [[o t]| | | |] eqn:Ee; try contradiction. destruct (exec c k s') as [[o' t']| | | |] eqn:Ee'; try contradiction.
      destruct H as [H _], H' as [H' _].
      destruct (IH (fun k0 a0 X => HT k0 a0 (or_intror X)) a' t t') as (B1 & B2 & B3);
        [eapply reach_call; eauto|eapply reach_call; eauto; rewrite <- T; exact Es|exact A|].
      destruct (FlowSpec.run c ks t) as [os e], (FlowSpec.run c ks t') as [os' e']. cbn [fst snd] in *.
      split; [constructor; [eapply HZ; eauto; eapply reach_inv; eauto|exact B1]|]. split; [exact B2|exact B3].
    + destruct (exec c k s) as [[o t]| | | |] eqn:Ee; try contradiction. destruct (exec c k s') as [[o' t']| | | |] eqn:Ee'; try contradiction.
      cbn. split; [constructor|]. split; [congruence|exact Logic.I].
    + destruct (exec c k s) as [[o t]| | | |] eqn:Ee; try contradiction. destruct (exec c k s') as [[o' t']| | | |] eqn:Ee'; try contradiction.
      cbn. split; [constructor|]. split; [destruct H, H'; split; congruence|exact Logic.I].
Qed.
End Stale.

Lemma all_along_more c tj (P Q : call -> astate -> Prop) : (forall k a, P k a -> Q k a) -> forall ks a, all_along c tj P ks a -> all_along c tj Q ks a.
Proof.
  intros H. induction ks as [|k ks IH]; cbn; [auto|]. intros a [A B]. split; [apply H, A|]. destruct (spec c tj k a); [apply IH, B|exact B|exact B].
Qed.
Lemma Forall2_map_eq {A B} (f : A -> B) : forall l l', Forall2 (fun x y => f x = f y) l l' -> map f l = map f l'.
Proof. induction 1; cbn; congruence. Qed.
Lemma Forall2_same {A} : forall l l' : list A, Forall2 eq l l' -> l = l'.
Proof. induction 1; congruence. Qed.

Lemma C87_lemma c tj hj lj rj hj' lj' rj' m ks : all_along c tj (legal c tj) ks (a_start m) ->
  let x := FlowSpec.run c ks (sys_start hj lj rj tj m) in let y := FlowSpec.run c ks (sys_start hj' lj' rj' tj m) in
  map bare_out (fst x) = map bare_out (fst y) /\ ends (fun s s' => s_mem s = s_mem s') (snd x) (snd y) /\ defined (snd x).
Proof.
  intros L x y. destruct (same_run c (fun _ _ => True) (fun o o' => bare_out o = bare_out o') tj tj) with (ks := ks) (a := a_start m)
    (s := sys_start hj lj rj tj m) (s' := sys_start hj' lj' rj' tj m) as (A & B & D).
  - intros. eapply spec_bare; eauto.
  - auto.
  - apply reach_start.
  - apply reach_start.
  - revert L. apply all_along_more. auto.
  - split; [apply Forall2_map_eq, A|]. split; [exact B|exact D].
Qed.
Lemma C87_exact_lemma c tj hj lj rj hj' lj' rj' m ks : all_along c tj (fun k a => legal c tj k a /\ no_send_reported k a) ks (a_start m) ->
  let x := FlowSpec.run c ks (sys_start hj lj rj tj m) in let y := FlowSpec.run c ks (sys_start hj' lj' rj' tj m) in
  fst x = fst y /\ ends (fun s s' => s_mem s = s_mem s') (snd x) (snd y).
Proof.
  intros L x y. destruct (same_run c no_send_reported eq tj tj) with (ks := ks) (a := a_start m)
    (s := sys_start hj lj rj tj m) (s' := sys_start hj' lj' rj' tj m) as (A & B & D).
  - intros. eapply spec_exact; eauto.
  - auto.
  - apply reach_start.
  - apply reach_start.
  - exact L.
  - split; [apply Forall2_same, A|exact B].
Qed.
Lemma no_new_type_same c tj tj' k a : no_new_type k -> spec c tj k a = spec c tj' k a /\ (legal c tj k a -> legal c tj' k a).
Proof. destruct k; cbn; intros H; try contradiction H; auto. Qed.
Lemma C87_basic_lemma c tj tj' hj lj rj hj' lj' rj' m ks : Forall no_new_type ks -> all_along c tj (fun k a => legal c tj k a /\ no_send_reported k a) ks (a_start m) ->
  let x := FlowSpec.run c ks (sys_start hj lj rj tj m) in let y := FlowSpec.run c ks (sys_start hj' lj' rj' tj' m) in
  fst x = fst y /\ ends (fun s s' => s_mem s = s_mem s') (snd x) (snd y).
Proof.
  intros N L x y. destruct (same_run c no_send_reported eq tj tj') with (ks := ks) (a := a_start m)
    (s := sys_start hj lj rj tj m) (s' := sys_start hj' lj' rj' tj' m) as (A & B & D).
  - intros. eapply spec_exact; eauto.
  - intros k a H. apply no_new_type_same. rewrite Forall_forall in N. apply N, H.
  - apply reach_start.
  - apply reach_start.
  - exact L.
  - split; [apply Forall2_same, A|exact B].
Qed.
