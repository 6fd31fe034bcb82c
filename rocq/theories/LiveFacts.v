(** Proofs about the accounting of handles. *)
From Verif Require Import Base HandleModel HandleSpec HandleProofs HandleExact TypeModel CopyModel SysModel CollModel SysCalls SysSpec SysLog SysReach SysInv SysAbs SysHist SysFacts SysFacts2 SysFacts3 LiveSpec.

Record acct (op cl : list Z) (a a' : astate) : Prop := {
  ac_new : forall h, In h op -> a_obj a h = None;
  ac_old : forall h, In h cl -> live a h;
  ac_nop : NoDup op; ac_ncl : NoDup cl;
  ac_all : forall h, live a' h <-> (live a h /\ ~ In h cl) \/ In h op
}.
Lemma acct_same a b : (forall h, live b h <-> live a h) -> acct [] [] a b.
Proof. intros H. split; [intros ? []|intros ? []|constructor|constructor|]. intros h. rewrite H. cbn. tauto. Qed.
Lemma acct_obj a b : (forall h, a_obj b h = a_obj a h) -> acct [] [] a b.
Proof. intros H. apply acct_same. intros h. unfold live. rewrite H. tauto. Qed.
Lemma acct_refl a : acct [] [] a a. Proof. apply acct_obj. auto. Qed.
Lemma one_nodup (h : Z) : NoDup [h]. Proof. constructor; [intros []|constructor]. Qed.
Lemma acct_new h a b : a_obj a h = None -> live b h -> (forall x, x <> h -> (live b x <-> live a x)) -> acct [h] [] a b.
Proof.
  intros N L E. split; [intros x [<-|[]]; exact N|intros ? []|apply one_nodup|constructor|]. intros x. split.
  - intros Lx. destruct (Z.eq_dec x h) as [->|Nx]; [right; left; auto|left]. split; [apply E; auto|intros []].
  - intros [[Lx _]|[<-|[]]]; auto. apply E; auto. intros ->. apply Lx. exact N.
Qed.
Lemma acct_added h o a b : added h o a b -> acct [h] [] a b.
Proof. intros (_ & N & E & F & _). apply acct_new; auto; [unfold live; congruence|]. intros x Nx. unfold live. rewrite F; tauto. Qed.
Lemma acct_released h a b : live a h -> released h a b -> acct [] [h] a b.
Proof.
  intros L (N & F & _). split; [intros ? []|intros x [<-|[]]; exact L|constructor|apply one_nodup|]. intros x. split.
  - intros Lx. left. split; [|intros [<-|[]]; apply Lx; exact N]. destruct (Z.eq_dec x h) as [->|Nx]; auto. unfold live. rewrite <- F; auto.
  - intros [[Lx Nx]|[]]. unfold live. rewrite F; auto. intros ->. apply Nx. left. auto.
Qed.
Lemma acct_same_r op cl a b d : acct op cl a b -> (forall h, live d h <-> live b h) -> acct op cl a d.
Proof. intros [A B C D E] H. constructor; auto. intros h. rewrite H. apply E. Qed.
Lemma acct_same_l op cl a b d : (forall h, live b h <-> live a h) -> acct op cl b d -> acct op cl a d.
Proof.
  intros H [A B C D E]. constructor; auto.
  - intros h I. specialize (A h I). destruct (a_obj a h) eqn:X; auto. destruct (proj2 (H h)); [unfold live; congruence|exact A].
  - intros h I. apply H. auto.
  - intros h. rewrite E, H. tauto.
Qed.
Lemma nodup_app (x y : list Z) : NoDup x -> NoDup y -> (forall h, In h x -> ~ In h y) -> NoDup (x ++ y).
Proof.
  intros X Y D. induction X as [|h x N X IH]; [exact Y|]. cbn [app]. constructor.
  - rewrite in_app_iff. intros [I|I]; auto. apply (D h); [left; auto|exact I].
  - apply IH. intros z I. apply D. right. exact I.
Qed.
Lemma acct_trans_cl x y a b d : acct [] x a b -> acct [] y b d -> acct [] (x ++ y) a d.
Proof.
  intros [_ B1 _ D1 E1] [_ B2 _ D2 E2]. constructor; [intros ? []| |constructor| |].
  - intros h I. apply in_app_iff in I. destruct I as [I|I]; auto. apply B2, E1 in I. destruct I as [[I _]|[]]. exact I.
  - apply nodup_app; auto. intros h I J. apply B2, E1 in J. destruct J as [[_ J]|[]]. auto.
  - intros h. rewrite E2, E1, in_app_iff. cbn. tauto.
Qed.
(** A handle that was given out and taken back. *)
Lemma acct_temp h a b d : acct [h] [] a b -> acct [] [h] b d -> acct [] [] a d.
Proof.
  intros [A _ _ _ E1] [_ _ _ _ E2]. apply acct_same. intros x. rewrite E2, E1. cbn. specialize (A h (or_introl eq_refl)). unfold live.
  destruct (Z.eq_dec h x) as [->|N]; intuition congruence.
Qed.

Lemma live_comm a x k : comm_at a x = Some k -> live a x. Proof. intros E. apply comm_obj in E. unfold live. congruence. Qed.
Lemma live_req a x q : req_at a x = Some q -> live a x. Proof. intros E. apply req_obj in E. unfold live. congruence. Qed.
Lemma acct_queued sd a cm k p b : comm_at a cm = Some k -> queued sd a cm k p b -> acct [p_req p] [] a b.
Proof.
  intros Ek Q. apply acct_new; [apply Q|eapply live_req; apply Q|]. intros x Nx. destruct (Z.eq_dec x cm) as [->|Nc].
  - split; intros _; eapply live_comm; eauto; apply Q.
  - unfold live. rewrite (qd_rest _ _ _ _ _ _ Q) by auto. tauto.
Qed.
Lemma acct_paired sd a cm k id h g bf p e m b : inv a -> comm_at a cm = Some k -> earliest sd g k bf p e -> paired sd a cm k id h g bf p e m b -> acct [h] [] a b.
Proof.
  intros I Ek Er [[B N] Q1 Q2 C1 L1 M1 Oth]. pose proof (inv_q a (other sd) cm k p I Ek (earliest_in _ _ _ _ _ _ Er)) as Pq.
  apply acct_new; auto; [eapply live_req; eauto|]. intros x Nx. destruct (Z.eq_dec x cm) as [->|Nc].
  - split; intros _; eapply live_comm; eauto.
  - destruct (Z.eq_dec x (p_req p)) as [->|Np]; [split; intros _; eapply live_req; eauto|]. unfold live. rewrite Oth by auto. tauto.
Qed.
Lemma acct_isend c a b n t d g cm h a' : inv a -> s_isend c b n t d g cm a = Ret h a' -> acct [h] [] a a'.
Proof.
  intros I E. destruct (isend_inv _ _ _ _ _ _ _ _ _ I E) as [(_ & Ad)|(_ & k & Ek & [(bf & p & e & m & Ea & _ & P)|(_ & Q)])].
  - eapply acct_added; eauto.
  - eapply acct_paired; eauto.
  - eapply acct_queued in Q; eauto.
Qed.
Lemma acct_irecv c a b n t d g cm h a' : inv a -> s_irecv c b n t d g cm a = Ret h a' -> acct [h] [] a a'.
Proof.
  intros I E. destruct (irecv_inv _ _ _ _ _ _ _ _ _ I E) as [(_ & Ad)|(_ & k & Ek & [(bf & p & e & m & Ea & _ & P)|(_ & Q)])].
  - eapply acct_added; eauto.
  - eapply acct_paired; eauto.
  - eapply acct_queued in Q; eauto.
Qed.
Lemma gone_same : forall l r, gone l (l ++ r) = [].
Proof. unfold gone. induction l as [|h l IH]; intros r; [reflexivity|]. cbn [app combine filter fst snd]. destruct (h =? MPI_REQUEST_NULL); cbn [negb andb]; apply IH. Qed.
Lemma gone_prefix n l : gone (firstn n l) l = [].
Proof. rewrite <- (firstn_skipn n l) at 2. apply gone_same. Qed.
Lemma gone_cons r r' l l' : gone (r :: l) (r' :: l') = gone [r] [r'] ++ gone l l'.
Proof. unfold gone. cbn [combine filter fst snd]. destruct (negb (r =? MPI_REQUEST_NULL) && (r' =? MPI_REQUEST_NULL)); reflexivity. Qed.
Lemma acct_test r a r' f w a' : s_test r a = Ret (r', f, w) a' -> acct [] (gone [r] [r']) a a' /\ (f =? 0 = true -> r' = r) /\ (r' = r \/ r' = MPI_REQUEST_NULL).
Proof.
  unfold s_test. destruct (Z.eqb_spec r MPI_REQUEST_NULL) as [->|N].
  - intros E. injection E as <- <- _ <-. split; [apply acct_refl|]. split; auto.
  - destruct (req_at a r) as [q|] eqn:Er; [|discriminate]. destruct (report q).
    + unfold sbind, s_free. cbn [sret]. intros E. injection E as <- <- _ <-. split; [|split; [discriminate|auto]].
      unfold gone. cbn [combine filter fst snd]. apply Z.eqb_neq in N. rewrite N. cbn. apply acct_released; [eapply live_req; eauto|apply s_free_released].
    + intros E. injection E as <- <- _ <-. split; auto. unfold gone. cbn [combine filter fst snd]. apply Z.eqb_neq in N. rewrite N. apply acct_refl.
Qed.
Lemma acct_wait msg r a r' w a' : s_wait msg r a = Ret (r', w) a' -> acct [] (gone [r] [r']) a a' /\ exists f, s_test r a = Ret (r', f, w) a' /\ f =? 0 = false.
Proof.
  unfold s_wait, sbind. destruct (s_test r a) as [[[r1 f] w1] a1| |] eqn:E; try discriminate. destruct (f =? 0) eqn:Ef; [discriminate|].
  intros X. injection X as <- <- <-. split; [apply (acct_test _ _ _ _ _ _ E)|eauto].
Qed.
Lemma test_flag r a r' f w a' : s_test r a = Ret (r', f, w) a' -> f =? 0 = false -> r' = MPI_REQUEST_NULL.
Proof.
  unfold s_test. destruct (r =? MPI_REQUEST_NULL); [intros E; injection E as <- _ _ _; auto|]. destruct (req_at a r); [|discriminate]. destruct (report _).
  - unfold sbind, s_free. cbn [sret]. intros E. injection E as <- _ _ _; auto.
  - intros E. injection E as _ <- _ _. discriminate.
Qed.
Lemma acct_absorb msg h a b r w d : 1 <= h -> acct [h] [] a b -> s_wait msg h b = Ret (r, w) d -> acct [] [] a d.
Proof.
  intros P A E. destruct (acct_wait _ _ _ _ _ _ E) as (B & f & Et & Ef). pose proof (test_flag _ _ _ _ _ _ Et Ef). subst r.
  unfold gone in B. cbn [combine filter fst snd] in B. destruct (Z.eqb_spec h MPI_REQUEST_NULL) as [->|_]; [exfalso; revert P; apply Zlt_not_le; reflexivity|].
  cbn in B. eapply acct_temp; eauto.
Qed.
Lemma acct_tests : forall n rs a rs' fs ws a', s_tests n rs a = Ret (rs', fs, ws) a' -> acct [] (gone (firstn n rs) rs') a a'.
Proof.
  induction n as [|n IH]; intros rs a rs' fs ws a'; cbn [s_tests]; [intros E; injection E as _ _ _ <-; apply acct_refl|].
  destruct rs as [|r rs]; [intros E; injection E as _ _ _ <-; apply acct_refl|]. unfold sbind.
  destruct (s_test r a) as [[[r1 f] w] a1| |] eqn:E1; try discriminate. destruct (s_tests n rs a1) as [[[r2 f2] w2] a2| |] eqn:E2; try discriminate.
  intros X. injection X as <- _ _ <-. cbn [firstn]. rewrite gone_cons. eapply acct_trans_cl; [apply (acct_test _ _ _ _ _ _ E1)|eauto].
Qed.
Lemma acct_waitall : forall n rs a rs' ws a', s_waitall n rs a = Ret (rs', ws) a' -> acct [] (gone (firstn n rs) rs') a a'.
Proof.
  induction n as [|n IH]; intros rs a rs' ws a'; cbn [s_waitall]; [intros E; injection E as _ _ <-; apply acct_refl|].
  destruct rs as [|r rs]; [intros E; injection E as _ _ <-; apply acct_refl|]. unfold sbind.
  destruct (s_wait _ r a) as [[r1 w] a1| |] eqn:E1; try discriminate. destruct (s_waitall n rs a1) as [[r2 w2] a2| |] eqn:E2; try discriminate.
  intros X. injection X as <- _ <-. cbn [firstn]. rewrite gone_cons. eapply acct_trans_cl; [apply (acct_wait _ _ _ _ _ _ E1)|eauto].
Qed.
Lemma acct_testany : forall n rs dn a rs' f w a', s_testany n dn rs a = Ret (rs', f, w) a' -> exists x, rs' = dn ++ x /\ acct [] (gone (firstn n rs) x) a a'.
Proof.
  induction n as [|n IH]; intros rs dn a rs' f w a'; cbn [s_testany]; [intros E; injection E as <- _ _ <-; eexists; split; [reflexivity|apply acct_refl]|].
  destruct rs as [|r rs]; [intros E; injection E as <- _ _ <-; eexists; split; [reflexivity|apply acct_refl]|]. unfold sbind.
  destruct (s_test r a) as [[[r1 f1] w1] a1| |] eqn:E1; try discriminate. destruct (acct_test _ _ _ _ _ _ E1) as (A & _). destruct (f1 =? 0).
  - intros E2. apply IH in E2. destruct E2 as (x & -> & B). exists (r1 :: x). rewrite <- app_assoc. split; [reflexivity|].
    cbn [firstn]. rewrite gone_cons. eapply acct_trans_cl; eauto.
  - intros X. injection X as <- _ _ <-. exists (r1 :: rs). split; [reflexivity|]. cbn [firstn]. rewrite gone_cons, gone_prefix, app_nil_r. exact A.
Qed.
Lemma acct_comm_new a h a' : inv a -> s_comm_new a = Ret h a' -> acct (unless_null h) [] a a'.
Proof.
  intros I E. destruct (comm_new_added _ _ _ I E) as (Ad & _). unfold unless_null.
  destruct (Z.eqb_spec h 0) as [->|_]; [destruct Ad as (B & _); exfalso; revert B; apply Zlt_not_le; reflexivity|]. eapply acct_added; eauto.
Qed.
Lemma acct_startup a a' : inv a -> s_startup a = Ret tt a' -> acct [MPI_COMM_WORLD] [] a a'.
Proof.
  intros I. unfold s_startup, sbind. destruct (s_comm_new a) as [x a1| |] eqn:E1; try discriminate. destruct (Z.eqb_spec x MPI_COMM_WORLD) as [->|]; [|discriminate].
  intros E. injection E as <-. apply (acct_same_r _ _ _ a1); [|intros h; unfold live; cbn; tauto]. exact (acct_comm_new _ _ _ I E1).
Qed.
Lemma acct_send c b n t d g cm a u a' : inv a -> s_send c b n t d g cm a = Ret u a' -> acct [] [] a a'.
Proof.
  intros I. unfold s_send, sbind. destruct (s_isend c b n t d g cm a) as [h a1| |] eqn:E1; try discriminate.
  destruct (s_wait _ h a1) as [[r w] a2| |] eqn:E2; try discriminate. intros E. injection E as _ <-. eapply acct_absorb; [|eapply acct_isend; eauto|eauto].
  destruct (isend_inv _ _ _ _ _ _ _ _ _ I E1) as [(_ & Ad)|(_ & k & Ek & [(bf & p & e & m & Ea & _ & P)|(_ & Q)])]; [apply Ad|apply P|apply Q].
Qed.
Lemma irecv_pos c b n t d g cm a h a' : inv a -> s_irecv c b n t d g cm a = Ret h a' -> 1 <= h.
Proof.
  intros I E1. destruct (irecv_inv _ _ _ _ _ _ _ _ _ I E1) as [(_ & Ad)|(_ & k & Ek & [(bf & p & e & m & Ea & _ & P)|(_ & Q)])]; [apply Ad|apply P|apply Q].
Qed.
Lemma acct_between h a b d : acct [h] [] a b -> acct [] [] b d -> acct [h] [] a d.
Proof. intros A [_ _ _ _ E]. eapply acct_same_r; [exact A|]. intros x. rewrite E. cbn. tauto. Qed.
Lemma Ret_both {A} (x : A) a y b : Ret x a = Ret y b -> x = y /\ a = b. Proof. intros E. injection E. auto. Qed.
Theorem spec_acct c tj k a Q a' o : inv a -> legal c tj k a -> k <> KFinalize -> spec c tj k a = Ret Q a' -> Q o -> acct (opened k o) (closed k o) a a'.
Proof.
  intros I L NF.
  destruct k; cbn [spec legal opened closed] in *; unfold smap; try (unfold sbind at 1);
  try (destruct (s_startup a) as [[] a1| |] eqn:E1; try discriminate; intros E _; apply Ret_state in E; subst a'; apply acct_startup; auto; fail);
  try (match goal with |- context [if ?b then sret _ else s_comm_new] => destruct b end;
       [cbn [sret]; intros E; apply Ret_both in E; destruct E as [<- <-]; intros ->; apply acct_refl|];
       destruct (s_comm_new a) as [x a1| |] eqn:E1; try discriminate; intros E; apply Ret_both in E; destruct E as [<- <-]; intros ->; eapply acct_comm_new; eauto; fail);
  try (match goal with |- context [s_isend ?c ?b ?n ?t ?d ?g ?cm a] => destruct (s_isend c b n t d g cm a) as [x a1| |] eqn:E1 end; try discriminate;
       intros E; apply Ret_both in E; destruct E as [<- <-]; intros ->; eapply acct_isend; eauto; fail);
  try (match goal with |- context [s_irecv ?c ?b ?n ?t ?d ?g ?cm a] => destruct (s_irecv c b n t d g cm a) as [x a1| |] eqn:E1 end; try discriminate;
       intros E; apply Ret_both in E; destruct E as [<- <-]; intros ->; eapply acct_irecv; eauto; fail);
  try (match goal with |- context [s_send ?c ?b ?n ?t ?d ?g ?cm a] => destruct (s_send c b n t d g cm a) as [x a1| |] eqn:E1 end; try discriminate;
       intros E _; apply Ret_state in E; subst a'; eapply acct_send; eauto; fail);
  try (match goal with |- context [s_query ?c ?h ?q a] => destruct (s_query c h q a) as [x a1| |] eqn:E1 end; try discriminate;
       intros E _; apply Ret_state in E; subst a'; apply query_state in E1; subst a1; apply acct_refl; fail);
  try (match goal with |- context [s_moves ?f a] => destruct (s_moves f a) as [x a1| |] eqn:E1 end; try discriminate;
       intros E _; apply Ret_state in E; subst a'; apply moves_state in E1; destruct E1 as [m ->]; apply acct_obj; reflexivity);
  try (unfold s_cart; match goal with |- context [existsb ?f ?l] => destruct (existsb f l) end; [discriminate|];
       destruct (s_comm_new a) as [x a1| |] eqn:E1; try discriminate; intros E; apply Ret_both in E; destruct E as [<- <-]; intros ->; eapply acct_comm_new; eauto; fail).
  - congruence.
  - intros E _. apply Ret_state in E. subst a'. apply acct_refl.
  - destruct (s_comm_new a) as [x a1| |] eqn:E1; try discriminate. intros E; apply Ret_both in E; destruct E as [<- <-]; intros ->. eapply acct_comm_new; eauto.
  - (* comm_free *) unfold s_comm_free. destruct (comm_at a comm) as [k|] eqn:Ek; [|discriminate]. unfold sbind, s_free. cbn [sret].
    intros E _. apply Ret_state in E. subst a'. eapply acct_same_r; [apply acct_released; [eapply live_comm; eauto|apply (freed_released a comm)]|].
    intros h. unfold live. cbn. tauto.
  - (* irsend *) unfold s_irsend, sbind. match goal with |- context [s_isend ?c ?b ?n ?t ?d ?g ?cm a] => destruct (s_isend c b n t d g cm a) as [x a1| |] eqn:E1 end; try discriminate.
    destruct (complete a1 x); [|discriminate]. intros E. apply Ret_both in E; destruct E as [<- <-]; intros ->. eapply acct_isend; eauto.
  - (* recv *) unfold s_recv, sbind. match goal with |- context [s_irecv ?c ?b ?n ?t ?d ?g ?cm a] => destruct (s_irecv c b n t d g cm a) as [x a1| |] eqn:E1 end; try discriminate.
    destruct (s_wait _ x a1) as [[y w] a2| |] eqn:E2; try discriminate. cbn [sret]. intros E _. apply Ret_state in E. subst a'.
    eapply acct_absorb; [eapply irecv_pos; eauto|eapply acct_irecv; eauto|eauto].
  - (* sendrecv *) unfold s_sendrecv, sbind. match goal with |- context [s_irecv ?c ?b ?n ?t ?d ?g ?cm a] => destruct (s_irecv c b n t d g cm a) as [x a1| |] eqn:E1 end; try discriminate.
    match goal with |- context [s_send ?c ?b ?n ?t ?d ?g ?cm a1] => destruct (s_send c b n t d g cm a1) as [u a2| |] eqn:E2 end; try discriminate.
    destruct (s_wait _ x a2) as [[y w] a3| |] eqn:E3; try discriminate. cbn [sret]. intros E _. apply Ret_state in E. subst a'.
    pose proof (irecv_keeps _ _ _ _ _ _ _ _ _ _ I E1) as I1.
    apply (acct_absorb _ x a a2 _ _ a3 (irecv_pos _ _ _ _ _ _ _ _ _ _ I E1)) in E3; [exact E3|].
    exact (acct_between _ _ _ _ (acct_irecv _ _ _ _ _ _ _ _ _ _ I E1) (acct_send _ _ _ _ _ _ _ _ _ _ I1 E2)).
  - destruct (s_test req a) as [[[? ?] ?] a1| |] eqn:E1; try discriminate. intros E; apply Ret_both in E; destruct E as [<- <-]; intros (st' & _ & ->). eapply acct_test; eauto.
  - destruct (s_wait _ req a) as [[? ?] a1| |] eqn:E1; try discriminate. intros E; apply Ret_both in E; destruct E as [<- <-]; intros (st' & _ & ->). eapply acct_wait; eauto.
  - destruct (s_testany _ _ _ a) as [[[? ?] ?] a1| |] eqn:E1; try discriminate. intros E; apply Ret_both in E; destruct E as [<- <-]; intros (st' & _ & ->).
    apply acct_testany in E1. destruct E1 as (x & -> & A). exact A.
  - unfold s_waitany, sbind. destruct (s_testany _ _ _ a) as [[[? f] ?] a1| |] eqn:E1; try discriminate. destruct (f =? 0); [discriminate|]. cbn [sret].
    intros E; apply Ret_both in E; destruct E as [<- <-]; intros (st' & _ & ->). apply acct_testany in E1. destruct E1 as (x & -> & A). exact A.
  - destruct (s_tests _ _ a) as [[[? ?] ?] a1| |] eqn:E1; try discriminate. intros E; apply Ret_both in E; destruct E as [<- <-]; intros (st' & _ & ->). eapply acct_tests; eauto.
  - destruct (s_waitall _ _ a) as [[? ?] a1| |] eqn:E1; try discriminate. intros E; apply Ret_both in E; destruct E as [<- <-]; intros (st' & _ & ->). eapply acct_waitall; eauto.
  - destruct (s_tests _ _ a) as [[[? ?] ?] a1| |] eqn:E1; try discriminate. intros E; apply Ret_both in E; destruct E as [<- <-]; intros (st' & _ & ->). eapply acct_tests; eauto.
  - destruct (s_tests _ _ a) as [[[? ?] ?] a1| |] eqn:E1; try discriminate. intros E; apply Ret_both in E; destruct E as [<- <-]; intros (st' & _ & ->). eapply acct_tests; eauto.
  - (* request_free *) unfold s_request_free, unless_null. unfold complete in L. change (req =? 0) with (req =? MPI_REQUEST_NULL). destruct (req =? MPI_REQUEST_NULL); cbn [orb] in L.
    + cbn [sret]. intros E _. apply Ret_state in E. subst a'. apply acct_refl.
    + unfold sbind, s_free. cbn [sret]. intros E _. apply Ret_state in E. subst a'. destruct (req_at a req) as [q|] eqn:Er; [|discriminate].
      apply acct_released; [eapply live_req; eauto|apply s_free_released].
  - unfold s_iprobe. destruct (negb _); [discriminate|]. destruct (comm_at a comm); [|discriminate]. destruct (first_such _ _) as [[[? ?] ?]|]; cbn [sret];
    intros E _; apply Ret_state in E; subst a'; apply acct_refl.
  - unfold s_probe, s_iprobe, sbind. destruct (negb _); [discriminate|]. destruct (comm_at a comm); [|discriminate]. destruct (first_such _ _) as [[[? ?] ?]|]; cbn;
    intros E _; [apply Ret_state in E; subst a'; apply acct_refl|discriminate].
  - (* type create *) unfold s_type_create. destruct (next_handle _ _) as [y|]; [|discriminate]. destruct (make_type _ _ _ _); try discriminate.
    unfold sbind. destruct (s_alloc _ a) as [h a1| |] eqn:Ea; try discriminate. apply alloc_inv in Ea. destruct Ea as (fr & top & En & ->). cbn [sret].
    intros E. apply Ret_both in E; destruct E as [<- <-]; intros ->. eapply acct_same_r; [eapply acct_added; eapply new_added; eauto|].
    intros x. unfold live. cbn. reflexivity.
  - (* type commit *) unfold s_type_commit. destruct (a_obj a h) as [[k|q|t]|] eqn:Eo; cbn [sret]; intros E _; apply Ret_state in E; subst a'; try apply acct_refl.
    apply acct_same. intros x. unfold live. cbn. destruct (Z.eq_dec x h) as [->|Nx]; [rewrite upd_same, Eo; split; discriminate|rewrite upd_other by auto; tauto].
  - (* type free *) unfold s_type_free, sbind, s_free. cbn [sret]. intros E _. apply Ret_state in E. subst a'. destruct L as (t & Eo).
    apply acct_released; [unfold live; congruence|apply s_free_released].
  - intros E _. apply Ret_state in E. subst a'. apply acct_obj. reflexivity.
Qed.

(** *** Counting *)
Lemma zr_length a n : Z.of_nat (length (zr a n)) = Z.max 0 n.
Proof. unfold zr. rewrite map_length, seq_length. lia. Qed.
Lemma hx_count {D} (t : htab D) lv fr top : HX t lv fr top -> NoDup lv /\ (next_handle fr top <> None <-> Z.of_nat (length lv) < CAPACITY).
Proof.
  unfold next_handle. intros [(_ & -> & -> & ->)|(high & I & T)].
  - split; [constructor|]. change (0 =? CAPACITY) with false. cbn [length]. split; [intros _; reflexivity|discriminate].
  - pose proof (hv_nodup I) as ND. pose proof (hinv_count _ _ _ _ _ I) as CNT. pose proof (hv_nb I) as NB. rewrite app_length, Nat2Z.inj_add, zr_length in CNT.
    split; [clear - ND; induction lv as [|h lv IH]; [constructor|]; inversion ND as [|? ? N X]; subst; constructor; [intros Y; apply N, in_or_app; auto|auto]|].
    unfold MAX_BLOCKS in NB. destruct fr as [|f r].
    + cbn [length] in CNT. destruct (Z.eqb_spec top CAPACITY) as [->|N]; unfold CAPACITY in *; split; intros X; try congruence; lia.
    + cbn [length] in CNT. split; [intros _|discriminate]. unfold CAPACITY in *. lia.
Qed.
Lemma count_live c tj s a : reach c tj s a -> exists lv, NoDup lv /\ (forall h, In h lv <-> live a h) /\ (has_handle a <-> Z.of_nat (length lv) < CAPACITY).
Proof.
  intros R. destruct (ab_ex (reach_abs _ _ R)) as (lv & f & ids & g & [X _] & L & _). destruct (hx_count _ _ _ _ X) as [ND H]. eauto.
Qed.
Lemma same_length (l l' : list Z) : NoDup l -> NoDup l' -> (forall h, In h l <-> In h l') -> length l = length l'.
Proof. intros A B H. apply Permutation.Permutation_length, Permutation.NoDup_Permutation; auto. Qed.
Lemma in_b h l : existsb (Z.eqb h) l = true <-> In h l.
Proof. rewrite existsb_exists. split; [intros (x & I & E); apply Z.eqb_eq in E; subst; auto|intros I; exists h; split; auto; apply Z.eqb_refl]. Qed.
Lemma filter_not (cl hs : list Z) h : In h (filter (fun h => negb (existsb (Z.eqb h) cl)) hs) <-> In h hs /\ ~ In h cl.
Proof. rewrite filter_In, negb_true_iff. pose proof (in_b h cl). destruct (existsb (Z.eqb h) cl); intuition congruence. Qed.
Definition lists (hs : list Z) (a : astate) : Prop := NoDup hs /\ forall h, In h hs <-> live a h.
Lemma acct_held op cl a b hs : acct op cl a b -> lists hs a -> lists (filter (fun h => negb (existsb (Z.eqb h) cl)) hs ++ op) b.
Proof.
  intros [A B C D E] [N H]. split.
  - apply nodup_app; [apply NoDup_filter; exact N|exact C|]. intros h I J. apply filter_not in I. destruct I as [I _]. apply H in I. apply I, A, J.
  - intros h. rewrite in_app_iff, filter_not, H, E. tauto.
Qed.
Lemma does_held c tj s a k o s' a' hs : reach c tj s a -> does c tj s a k o s' a' -> lists hs a -> lists (held hs (k, o)) a'.
Proof.
  intros R (L & _ & _ & Q & E & Ho) H. destruct (match k with KFinalize => true | _ => false end) eqn:F.
  - destruct k; try discriminate. cbn in E. injection E as _ <-. split; [constructor|]. intros h. unfold live. cbn. tauto.
  - assert (N : k <> KFinalize) by (intros ->; discriminate). pose proof (spec_acct _ _ _ _ _ _ _ (reach_inv _ _ R) L N E Ho) as A.
    assert (X : held hs (k, o) = filter (fun h => negb (existsb (Z.eqb h) (closed k o))) hs ++ opened k o) by (destruct k; try discriminate; reflexivity).
    rewrite X. eapply acct_held; eauto.
Qed.
Lemma leads_held c tj s a l s' a' : leads c tj s a l s' a' -> forall hs, reach c tj s a -> lists hs a -> lists (fold_left held l hs) a' /\ reach c tj s' a'.
Proof.
  induction 1 as [s a|s a k o s1 a1 l s2 a2 D _ IH]; intros hs R H; [auto|]. cbn [fold_left]. apply IH; [eapply does_reach; eauto|eapply does_held; eauto].
Qed.
Lemma lists_room c tj s a hs : reach c tj s a -> lists hs a -> (has_handle a <-> Z.of_nat (length hs) < CAPACITY).
Proof.
  intros R [N H]. destruct (count_live _ _ _ _ R) as (lv & N' & H' & E). rewrite E. rewrite (same_length lv hs); auto; [tauto|]. intros h. rewrite H, H'. tauto.
Qed.
Theorem C81_call_lemma c tj s a k o s' a' : reach c tj s a -> does c tj s a k o s' a' -> k <> KFinalize ->
  (forall h, In h (opened k o) -> a_obj a h = None) /\ (forall h, In h (closed k o) -> a_obj a h <> None) /\
  NoDup (opened k o) /\ NoDup (closed k o) /\
  (forall h, a_obj a' h <> None <-> (a_obj a h <> None /\ ~ In h (closed k o)) \/ In h (opened k o)).
Proof. intros R (L & _ & _ & Q & E & Ho) N. destruct (spec_acct _ _ _ _ _ _ _ (reach_inv _ _ R) L N E Ho) as [A B C D F]. auto. Qed.
Theorem C81_history_lemma c tj hj lj rj m l s a : leads c tj (sys_start hj lj rj tj m) (a_start m) l s a ->
  let hs := fold_left held l [] in
  NoDup hs /\ (forall h, In h hs <-> a_obj a h <> None) /\ (has_handle a <-> Z.of_nat (length hs) < CAPACITY).
Proof.
  intros R. assert (R0 := reach_start c tj hj lj rj m). destruct (leads_held _ _ _ _ _ _ _ R [] R0) as [[N H] R1].
  { split; [constructor|]. intros h. unfold live. cbn. tauto. }
  split; [exact N|]. split; [exact H|]. eapply lists_room; eauto. split; auto.
Qed.
(** Numbers: as many more are held as were opened, less those closed. *)
Lemma held_length (cl : list Z) : forall hs, NoDup cl -> NoDup hs -> incl cl hs -> (length (filter (fun h => negb (existsb (Z.eqb h) cl)) hs) + length cl = length hs)%nat.
Proof.
  intros hs NC NH I. rewrite <- app_length. symmetry. apply Permutation.Permutation_length, Permutation.NoDup_Permutation; auto.
  - apply nodup_app; [apply NoDup_filter; auto|auto|]. intros h A. apply filter_not in A. tauto.
  - intros h. rewrite in_app_iff, filter_not. destruct (in_dec Z.eq_dec h cl); intuition.
Qed.
