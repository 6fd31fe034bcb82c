(** The counters of the list package agree with what the queues hold (C82). *)
From Verif Require Import Base HandleModel HandleSpec HandleProofs HandleExact TypeModel CopyModel ListModel SysModel CollModel SysCalls SysSpec SysLog SysReach SysInv SysAbs SysSim SysSim3 SysHist SysFacts SysFacts2 SysFacts3 LiveSpec LiveFacts CopyEx SysEx.

Definition bal (li lh : Z) (a : astate) : Prop :=
  exists hs, lists hs a /\ a_items a = li + total entries a hs /\ a_heads a = lh + total queues a hs.

Lemma total_ext f a b hs : (forall h, In h hs -> a_obj b h = a_obj a h) -> total f b hs = total f a hs.
Proof. intros H. unfold total. induction hs as [|h hs IH]; [reflexivity|]. cbn [fold_right]. rewrite H, IH; auto; [intros x I; apply H; right; auto|left; auto]. Qed.
Lemma total_cons f a h hs : total f a (h :: hs) = f (a_obj a h) + total f a hs. Proof. reflexivity. Qed.
Lemma total_app f a x y : total f a (x ++ y) = total f a x + total f a y.
Proof. induction x as [|h x IH]; [reflexivity|]. cbn [app]. rewrite !total_cons, IH. lia. Qed.
Lemma total_at f a b h hs : NoDup hs -> In h hs -> (forall x, x <> h -> a_obj b x = a_obj a x) -> total f b hs = total f a hs - f (a_obj a h) + f (a_obj b h).
Proof.
  intros N I E. apply in_split in I. destruct I as (x & y & ->). apply NoDup_remove in N. destruct N as [_ N]. rewrite in_app_iff in N.
  rewrite !total_app, !total_cons. rewrite (total_ext f a b x), (total_ext f a b y); [lia| |]; intros z I; apply E; intros ->; apply N; auto.
Qed.
Lemma total_perm f a x y : Permutation.Permutation x y -> total f a x = total f a y.
Proof. induction 1; cbn [total fold_right] in *; rewrite ?total_cons in *; unfold total in *; lia. Qed.
Lemma lists_perm hs hs' a : lists hs a -> lists hs' a -> Permutation.Permutation hs hs'.
Proof. intros [N H] [N' H']. apply Permutation.NoDup_Permutation; auto. intros h. rewrite H, H'. tauto. Qed.

(** Elementary changes. *)
Lemma bal_env li lh a b : bal li lh a -> a_obj b = a_obj a -> bal (li + a_items b - a_items a) (lh + a_heads b - a_heads a) b.
Proof.
  intros (hs & [N H] & I & E) O. exists hs. split; [split; [exact N|intros h; unfold live; rewrite O; apply H]|].
  rewrite !(total_ext _ a b) by (intros; rewrite O; reflexivity). lia.
Qed.
Lemma bal_as li lh li' lh' a : bal li lh a -> li' = li -> lh' = lh -> bal li' lh' a. Proof. intros B -> ->. exact B. Qed.
Lemma bal_same li lh a b : bal li lh a -> a_obj b = a_obj a -> a_items b = a_items a -> a_heads b = a_heads a -> bal li lh b.
Proof. intros B O I H. eapply bal_as; [eapply bal_env; eauto|lia|lia]. Qed.
Lemma bal_set li lh a h o : bal li lh a -> live a h ->
  bal (li + entries (a_obj a h) - entries (Some o)) (lh + queues (a_obj a h) - queues (Some o)) (set_obj a h (Some o)).
Proof.
  intros (hs & [N H] & I & E) L. exists hs. split.
  - split; [exact N|]. intros x. rewrite H. unfold live. cbn. destruct (Z.eq_dec x h) as [->|Nx]; [rewrite upd_same; split; [discriminate|intros _; exact L]|rewrite upd_other by auto; tauto].
  - assert (In h hs) by (apply H; exact L). rewrite !(total_at _ a (set_obj a h (Some o)) h hs); auto; try (intros x Nx; cbn; apply upd_other; auto).
    cbn [a_items a_heads set_obj a_obj]. rewrite upd_same. lia.
Qed.
Lemma bal_new li lh a b h o : bal li lh a -> a_obj a h = None -> a_obj b = a_obj a -> a_items b = a_items a -> a_heads b = a_heads a ->
  bal (li - entries (Some o)) (lh - queues (Some o)) (set_obj b h (Some o)).
Proof.
  intros (hs & [N H] & I & E) L O I2 H2. assert (Nh : ~ In h hs) by (rewrite H; unfold live; congruence). exists (h :: hs). split.
  - split; [constructor; auto|]. intros x. cbn [In]. rewrite H. unfold live. cbn. rewrite O. destruct (Z.eq_dec x h) as [->|Nx].
    + rewrite upd_same. split; [discriminate|auto].
    + rewrite upd_other by auto. intuition congruence.
  - rewrite !total_cons, !(total_ext _ a (set_obj b h (Some o)) hs); try (intros x Ix; cbn; rewrite O; apply upd_other; intros ->; auto).
    cbn [a_items a_heads set_obj a_obj]. rewrite upd_same. lia.
Qed.
Lemma bal_free li lh a b h : bal li lh a -> live a h -> a_obj b = a_obj a -> a_items b = a_items a -> a_heads b = a_heads a ->
  bal (li + entries (a_obj a h)) (lh + queues (a_obj a h)) (set_obj b h None).
Proof.
  intros (hs & [N H] & I & E) L O I2 H2. assert (Ih : In h hs) by (rewrite H; exact L). apply in_split in Ih. destruct Ih as (x & y & ->).
  pose proof (NoDup_remove _ _ _ N) as [N1 N2]. exists (x ++ y). split.
  - split; [exact N1|]. intros z. unfold live. cbn. rewrite O. specialize (H z). rewrite !in_app_iff in *. cbn [In] in *. destruct (Z.eq_dec z h) as [->|Nz].
    + rewrite upd_same. intuition congruence.
    + rewrite upd_other by auto. unfold live in H. intuition congruence.
  - rewrite !(total_ext _ a (set_obj b h None) (x ++ y)); try (intros z Iz; cbn; rewrite O; apply upd_other; intros ->; auto).
    rewrite !total_app, !total_cons in *. cbn [a_items a_heads set_obj]. lia.
Qed.

Definition bkeeps {A} (e : sp A) : Prop := forall li lh a x a', inv a -> bal li lh a -> e a = Ret x a' -> inv a' /\ bal li lh a'.
Lemma bk_ret {A} (x : A) : bkeeps (sret x).
Proof. intros li lh a y a' I B E. injection E as _ <-. auto. Qed.
Lemma bk_bind {A B} (e : sp A) (f : A -> sp B) : bkeeps e -> (forall x, bkeeps (f x)) -> bkeeps (sbind e f).
Proof. intros He Hf li lh a y a' I Bl. unfold sbind. destruct (e a) as [x a1| |] eqn:E; try discriminate. destruct (He _ _ _ _ _ I Bl E). apply Hf; auto. Qed.
Lemma bk_abort {A} w : bkeeps (fun _ => @SAbort A w).
Proof. intros li lh a x a' _ _ E. discriminate. Qed.
Lemma bk_map {A} (f : A -> out -> Prop) e : bkeeps e -> bkeeps (smap f e).
Proof. intros H. apply bk_bind; auto. intros; apply bk_ret. Qed.
Lemma bk_of {A} (e : sp A) : keeps e -> (forall li lh a x a', inv a -> bal li lh a -> e a = Ret x a' -> bal li lh a') -> bkeeps e.
Proof. intros K H li lh a x a' I B E. split; [eapply K; eauto|eapply H; eauto]. Qed.
Lemma bk_id {A} (e : sp A) : (forall a x a', e a = Ret x a' -> a' = a) -> bkeeps e.
Proof. intros H li lh a x a' I B E. apply H in E. subst a'. auto. Qed.
Lemma bal_alloc li lh a h fr top o : inv a -> bal li lh a -> next_handle (a_freed a) (a_top a) = Some (h, fr, top) ->
  bal (li - entries (Some o)) (lh - queues (Some o)) (set_obj (with_handles a fr top) h (Some o)) /\ a_obj a h = None.
Proof. intros I B E. destruct (hw_next _ _ _ _ None (iv_hw _ I) E) as (N & _). split; [apply (bal_new _ _ a); auto|exact N]. Qed.
Lemma bk_isend c b n t d g cm : bkeeps (s_isend c b n t d g cm).
Proof.
  apply bk_of; [apply isend_keeps|]. intros li lh a x a' I B. unfold s_isend. destruct (negb (rank_ok d)); [discriminate|]. destruct (d =? MPI_PROC_NULL).
  { intros E. apply alloc_inv in E. destruct E as (fr & top & E & ->). eapply bal_as; [apply bal_alloc; eauto|cbn; lia|cbn; lia]. }
  destruct (comm_at a cm) as [k|] eqn:Ek; [|discriminate].
  destruct (first_such _ (k_recvs k)) as [[[bf p] e]|] eqn:Ef; unfold sbind.
  - destruct (s_alloc _ a) as [h a1| |] eqn:Ea; try discriminate. apply alloc_inv in Ea. destruct Ea as (fr & top & Ea & E1).
    destruct (s_xfer c b n t (p_buf p) (p_count p) (p_type p) a1) as [u a2| |] eqn:Ex; try discriminate. apply xfer_inv in Ex. destruct Ex as (m & ->). subst a1.
    intros X. injection X as <- <-. apply first_such_some in Ef. destruct Ef as (Eq & Fp & Fb).
    destruct (bal_alloc li lh a h fr top (AReq (QSent (a_clock a))) I B Ea) as [B1 N]. destruct (none_at _ _ N) as [N1 N2].
    pose proof (inv_q a Rcv cm k p I Ek ltac:(cbn; rewrite Eq; apply in_or_app; simpl; auto)) as Pq.
    assert (Nhc : h <> cm) by congruence. assert (Nhp : h <> p_req p) by congruence.
    assert (Npc : p_req p <> cm) by (intros X; apply req_comm in Pq; congruence).
    set (a1 := set_obj (with_handles a fr top) h (Some (AReq (QSent (a_clock a))))) in *.
    assert (B2 : bal li lh (with_mem a1 m)) by (eapply bal_same; [eapply bal_as; [exact B1|cbn; lia|cbn; lia]|reflexivity..]).
    assert (O2 : a_obj (with_mem a1 m) (p_req p) = Some (AReq (QPending Rcv (k_uid k) (p_id p)))) by (cbn; rewrite upd_other by auto; apply req_obj; exact Pq).
    pose proof (bal_set _ _ _ (p_req p) (AReq (QReceived (p_id p) g)) B2 ltac:(unfold live; congruence)) as B3. rewrite O2 in B3. set (a3 := set_obj (with_mem a1 m) (p_req p) _) in *.
    assert (O3 : a_obj a3 cm = Some (AComm k)) by (cbn; rewrite !upd_other by auto; apply comm_obj; exact Ek).
    pose proof (bal_set _ _ _ cm (AComm (mkAcomm (k_uid k) (k_sends k) (bf ++ e))) B3 ltac:(unfold live; congruence)) as B4. rewrite O3 in B4. set (a4 := set_obj a3 cm _) in *.
    pose proof (bal_env _ _ _ (with_items (with_clock (logged a4 [EPost (a_clock a) Snd (k_uid k) g; EMatch (a_clock a) (p_id p)]) (a_clock a + 1)) (a_items a4 - 1)) B4 eq_refl) as B5.
    eapply bal_as; [exact B5| |].
    + cbn [entries k_sends k_recvs a_items with_items]. rewrite Eq, !app_length. cbn [length]. lia.
    + cbn [queues a_heads with_items with_clock logged]. lia.
  - destruct (s_alloc _ a) as [h a1| |] eqn:Ea; try discriminate. apply alloc_inv in Ea. destruct Ea as (fr & top & Ea & ->).
    intros X. injection X as <- <-.
    destruct (bal_alloc li lh a h fr top (AReq (QPending Snd (k_uid k) (a_clock a))) I B Ea) as [B1 N]. destruct (none_at _ _ N) as [N1 N2].
    assert (Nhc : h <> cm) by congruence. set (a1 := set_obj (with_handles a fr top) h _) in *.
    assert (O3 : a_obj a1 cm = Some (AComm k)) by (cbn; rewrite !upd_other by auto; apply comm_obj; exact Ek).
    pose proof (bal_set _ _ _ cm (AComm (mkAcomm (k_uid k) (k_sends k ++ [mkPend (a_clock a) h b n t g]) (k_recvs k))) B1 ltac:(unfold live; congruence)) as B4.
    rewrite O3 in B4. set (a4 := set_obj a1 cm _) in *.
    pose proof (bal_env _ _ _ (with_items (with_clock (logged a4 [EPost (a_clock a) Snd (k_uid k) g]) (a_clock a + 1)) (a_items a4 + 1)) B4 eq_refl) as B5.
    eapply bal_as; [exact B5| |].
    + cbn [entries k_sends k_recvs a_items with_items]. rewrite !app_length. cbn [length]. lia.
    + cbn [queues a_heads with_items with_clock logged]. lia.
Qed.
Lemma bk_irecv c b n t d g cm : bkeeps (s_irecv c b n t d g cm).
Proof.
  apply bk_of; [apply irecv_keeps|]. intros li lh a x a' I B. unfold s_irecv. destruct (negb (source_ok d)); [discriminate|]. destruct (d =? MPI_PROC_NULL).
  { intros E. apply alloc_inv in E. destruct E as (fr & top & E & ->). eapply bal_as; [apply bal_alloc; eauto|cbn; lia|cbn; lia]. }
  destruct (comm_at a cm) as [k|] eqn:Ek; [|discriminate].
  destruct (first_such _ (k_sends k)) as [[[bf p] e]|] eqn:Ef; unfold sbind.
  - destruct (s_alloc _ a) as [h a1| |] eqn:Ea; try discriminate. apply alloc_inv in Ea. destruct Ea as (fr & top & Ea & E1).
    destruct (s_xfer c (p_buf p) n t b n t a1) as [u a2| |] eqn:Ex; try discriminate. apply xfer_inv in Ex. destruct Ex as (m & ->). subst a1.
    intros X. injection X as <- <-. apply first_such_some in Ef. destruct Ef as (Eq & Fp & Fb).
    destruct (bal_alloc li lh a h fr top (AReq (QReceived (a_clock a) (p_tag p))) I B Ea) as [B1 N]. destruct (none_at _ _ N) as [N1 N2].
    pose proof (inv_q a Snd cm k p I Ek ltac:(cbn; rewrite Eq; apply in_or_app; simpl; auto)) as Pq.
    assert (Nhc : h <> cm) by congruence. assert (Nhp : h <> p_req p) by congruence.
    assert (Npc : p_req p <> cm) by (intros X; apply req_comm in Pq; congruence).
    set (a1 := set_obj (with_handles a fr top) h (Some (AReq (QReceived (a_clock a) (p_tag p))))) in *.
    assert (B2 : bal li lh (with_mem a1 m)) by (eapply bal_same; [eapply bal_as; [exact B1|cbn; lia|cbn; lia]|reflexivity..]).
    assert (O2 : a_obj (with_mem a1 m) (p_req p) = Some (AReq (QPending Snd (k_uid k) (p_id p)))) by (cbn; rewrite upd_other by auto; apply req_obj; exact Pq).
    pose proof (bal_set _ _ _ (p_req p) (AReq (QSent (p_id p))) B2 ltac:(unfold live; congruence)) as B3. rewrite O2 in B3. set (a3 := set_obj (with_mem a1 m) (p_req p) _) in *.
    assert (O3 : a_obj a3 cm = Some (AComm k)) by (cbn; rewrite !upd_other by auto; apply comm_obj; exact Ek).
    pose proof (bal_set _ _ _ cm (AComm (mkAcomm (k_uid k) (bf ++ e) (k_recvs k))) B3 ltac:(unfold live; congruence)) as B4. rewrite O3 in B4. set (a4 := set_obj a3 cm _) in *.
    pose proof (bal_env _ _ _ (with_items (with_clock (logged a4 [EPost (a_clock a) Rcv (k_uid k) g; EMatch (p_id p) (a_clock a)]) (a_clock a + 1)) (a_items a4 - 1)) B4 eq_refl) as B5.
    eapply bal_as; [exact B5| |].
    + cbn [entries k_sends k_recvs a_items with_items]. rewrite Eq, !app_length. cbn [length]. lia.
    + cbn [queues a_heads with_items with_clock logged]. lia.
  - destruct (s_alloc _ a) as [h a1| |] eqn:Ea; try discriminate. apply alloc_inv in Ea. destruct Ea as (fr & top & Ea & ->).
    intros X. injection X as <- <-.
    destruct (bal_alloc li lh a h fr top (AReq (QPending Rcv (k_uid k) (a_clock a))) I B Ea) as [B1 N]. destruct (none_at _ _ N) as [N1 N2].
    assert (Nhc : h <> cm) by congruence. set (a1 := set_obj (with_handles a fr top) h _) in *.
    assert (O3 : a_obj a1 cm = Some (AComm k)) by (cbn; rewrite !upd_other by auto; apply comm_obj; exact Ek).
    pose proof (bal_set _ _ _ cm (AComm (mkAcomm (k_uid k) (k_sends k) (k_recvs k ++ [mkPend (a_clock a) h b n t g]))) B1 ltac:(unfold live; congruence)) as B4.
    rewrite O3 in B4. set (a4 := set_obj a1 cm _) in *.
    pose proof (bal_env _ _ _ (with_items (with_clock (logged a4 [EPost (a_clock a) Rcv (k_uid k) g]) (a_clock a + 1)) (a_items a4 + 1)) B4 eq_refl) as B5.
    eapply bal_as; [exact B5| |].
    + cbn [entries k_sends k_recvs a_items with_items]. rewrite !app_length. cbn [length]. lia.
    + cbn [queues a_heads with_items with_clock logged]. lia.
Qed.
Lemma bk_test r : bkeeps (s_test r).
Proof.
  apply bk_of; [apply test_keeps|]. intros li lh a x a' I B. unfold s_test. destruct (r =? MPI_REQUEST_NULL); [intros E; injection E as _ <-; exact B|].
  destruct (req_at a r) as [q|] eqn:Er; [|discriminate]. destruct (report q) as [w|] eqn:Ew; unfold sbind, s_free; [|intros E; injection E as _ <-; exact B].
  intros E. injection E as _ <-. pose proof (bal_free li lh a (with_handles a (r :: a_freed a) (a_top a)) r B (live_req _ _ _ Er) eq_refl eq_refl eq_refl) as B1.
  rewrite (req_obj _ _ _ Er) in B1. eapply bal_as; [exact B1|cbn; lia|cbn; lia].
Qed.
Lemma bk_wait m r : bkeeps (s_wait m r).
Proof. apply bk_bind; [apply bk_test|]. intros [[r' f] w]. destruct (f =? 0); [apply bk_abort|apply bk_ret]. Qed.
Lemma bk_testany : forall n rest done, bkeeps (s_testany n done rest).
Proof.
  induction n as [|n IH]; intros rest done; [apply bk_ret|]. destruct rest as [|r rest]; [apply bk_ret|]. cbn [s_testany].
  apply bk_bind; [apply bk_test|]. intros [[r' f] w]. destruct (f =? 0); [apply IH|apply bk_ret].
Qed.
Lemma bk_tests : forall n rest, bkeeps (s_tests n rest).
Proof.
  induction n as [|n IH]; intros rest; [apply bk_ret|]. destruct rest as [|r rest]; [apply bk_ret|]. cbn [s_tests].
  apply bk_bind; [apply bk_test|]. intros [[r' f] w]. apply bk_bind; [apply IH|]. intros [[? ?] ?]. apply bk_ret.
Qed.
Lemma bk_waitall : forall n rest, bkeeps (s_waitall n rest).
Proof.
  induction n as [|n IH]; intros rest; [apply bk_ret|]. destruct rest as [|r rest]; [apply bk_ret|]. cbn [s_waitall].
  apply bk_bind; [apply bk_wait|]. intros [r' w]. apply bk_bind; [apply IH|]. intros [? ?]. apply bk_ret.
Qed.
Lemma bk_comm_new : bkeeps s_comm_new.
Proof.
  apply bk_of; [apply comm_new_keeps|]. intros li lh a x a' I B. unfold s_comm_new, sbind. destruct (s_alloc _ a) as [h a1| |] eqn:Ea; try discriminate.
  apply alloc_inv in Ea. destruct Ea as (fr & top & Ea & ->). intros E. injection E as <- <-.
  destruct (bal_alloc li lh a h fr top (AComm (mkAcomm (a_made a) [] [])) I B Ea) as [B1 _].
  eapply bal_as; [eapply bal_env; [exact B1|reflexivity]|cbn; lia|cbn; lia].
Qed.
Lemma bk_startup : bkeeps s_startup.
Proof.
  apply bk_bind; [apply bk_comm_new|]. intros h. destruct (h =? MPI_COMM_WORLD); [|apply bk_abort].
  intros li lh a x a' I B E. injection E as _ <-. split; [apply (inv_env a); auto|eapply bal_same; [exact B|reflexivity..]].
Qed.
Lemma bk_comm_free h : bkeeps (s_comm_free h).
Proof.
  apply bk_of; [apply comm_free_keeps|]. intros li lh a x a' I B. unfold s_comm_free, sbind, s_free. destruct (comm_at a h) as [k|] eqn:Ek; [|discriminate].
  intros E. injection E as <- <-. pose proof (bal_free li lh a (with_handles a (h :: a_freed a) (a_top a)) h B (live_comm _ _ _ Ek) eq_refl eq_refl eq_refl) as B1.
  rewrite (comm_obj _ _ _ Ek) in B1. eapply bal_as; [eapply bal_env; [exact B1|reflexivity]|cbn; lia|cbn; lia].
Qed.
Lemma bk_iprobe so g cm : bkeeps (s_iprobe so g cm).
Proof.
  apply bk_id. intros a x a'. unfold s_iprobe. destruct (negb _); [discriminate|]. destruct (comm_at a cm) as [k|]; [|discriminate].
  destruct (first_such _ _) as [[[b p] e]|]; intros E; injection E as _ <-; reflexivity.
Qed.
Lemma bk_type_create c tj k : bkeeps (s_type_create c tj k).
Proof.
  apply bk_of; [apply type_create_keeps|]. intros li lh a x a' I B. unfold s_type_create. destruct (next_handle (a_freed a) (a_top a)) as [p|]; [|discriminate].
  destruct (make_type c tj a k) as [t| | | |]; try discriminate. unfold sbind.
  destruct (s_alloc _ a) as [h a1| |] eqn:Ea; try discriminate. apply alloc_inv in Ea. destruct Ea as (fr & top & Ea & ->).
  intros E. injection E as <- <-. destruct (bal_alloc li lh a h fr top (AType t) I B Ea) as [B1 _].
  eapply bal_as; [eapply bal_env; [exact B1|reflexivity]|cbn; lia|cbn; lia].
Qed.
Lemma bk_type_commit h : bkeeps (s_type_commit h).
Proof.
  apply bk_of; [apply type_commit_keeps|]. intros li lh a x a' I B. unfold s_type_commit. destruct (a_obj a h) as [[k|q|t]|] eqn:Eo; try (intros E; injection E as _ <-; exact B).
  intros E. injection E as _ <-. pose proof (bal_set li lh a h (AType (committed t)) B ltac:(unfold live; congruence)) as B1. rewrite Eo in B1.
  eapply bal_as; [exact B1|cbn; lia|cbn; lia].
Qed.
Lemma bk_query c h q : bkeeps (s_query c h q). Proof. apply bk_id. intros a x a'. apply query_state. Qed.
Lemma bk_moves {A} (f : astate -> res (mem * A)) : bkeeps (s_moves f).
Proof. apply bk_of; [apply moves_keeps|]. intros li lh a x a' I B E. apply moves_state in E. destruct E as [m ->]. eapply bal_same; [exact B|reflexivity..]. Qed.
Lemma bk_cart n dims : bkeeps (s_cart n dims).
Proof. unfold s_cart. destruct (existsb _ _); [apply bk_abort|apply bk_comm_new]. Qed.

Theorem spec_bal c tj k li lh a Q a' : inv a -> legal c tj k a -> k <> KFinalize -> bal li lh a -> spec c tj k a = Ret Q a' -> bal li lh a'.
Proof.
  intros I L NF B. revert B I.
  assert (Sends : forall b n t d g cm, bkeeps (s_send c b n t d g cm)).
  { intros. apply bk_bind; [apply bk_isend|]. intros r. apply bk_bind; [apply bk_wait|]. intros. apply bk_ret. }
  assert (Simple : forall e : sp (out -> Prop), bkeeps e -> bal li lh a -> inv a -> e a = Ret Q a' -> bal li lh a') by (intros e He Ba Ia Ee; eapply He; eauto).
  destruct k; cbn [spec legal] in *;
    match goal with |- _ -> _ -> smap _ (s_request_free _) _ = _ -> _ => idtac | |- _ -> _ -> smap _ (s_type_free _) _ = _ -> _ => idtac
    | |- _ -> _ -> smap _ s_finalize _ = _ -> _ => congruence | _ => try (apply Simple; apply bk_map) end;
    auto using bk_startup, bk_comm_new, bk_comm_free, bk_isend, bk_irecv, bk_test, bk_wait, bk_testany,
      bk_tests, bk_waitall, bk_iprobe, bk_type_create, bk_type_commit, bk_query, @bk_moves, bk_cart.
  - intros B I E. apply Ret_state in E. subst a'. exact B.
  - destruct (_ || _); [apply bk_ret|apply bk_comm_new].
  - destruct (_ =? _); [apply bk_ret|apply bk_comm_new].
  - destruct (_ && _); [apply bk_ret|apply bk_comm_new].
  - apply bk_bind; [apply bk_isend|]. intros r i h b y b' Ib Bb. destruct (complete b r); [|discriminate]. intros E. injection E as _ <-. auto.
  - apply bk_bind; [apply bk_irecv|]. intros r. apply bk_bind; [apply bk_wait|]. intros [? ?]. apply bk_ret.
  - apply bk_bind; [apply bk_irecv|]. intros r. apply bk_bind; [apply Sends|]. intros _. apply bk_bind; [apply bk_wait|]. intros [? ?]. apply bk_ret.
  - apply bk_bind; [apply bk_testany|]. intros [[? f] ?]. destruct (f =? 0); [apply bk_abort|apply bk_ret].
  - intros B I. unfold smap, sbind, s_request_free. unfold complete in L. destruct (Z.eqb_spec req MPI_REQUEST_NULL) as [|Nr].
    + cbn [sret]. intros E. apply Ret_state in E. subst a'. exact B.
    + cbn [orb] in L. unfold sbind, s_free. cbn [sret]. intros E. apply Ret_state in E. subst a'. destruct (req_at a req) as [q|] eqn:Er; [|discriminate].
      pose proof (bal_free li lh a (with_handles a (req :: a_freed a) (a_top a)) req B (live_req _ _ _ Er) eq_refl eq_refl eq_refl) as B1.
      rewrite (req_obj _ _ _ Er) in B1. eapply bal_as; [exact B1|cbn; lia|cbn; lia].
  - apply bk_bind; [apply bk_iprobe|]. intros [f w]. destruct (f =? 0); [apply bk_abort|apply bk_ret].
  - intros B I. unfold smap, sbind, s_type_free, sbind, s_free. cbn [sret]. intros E. apply Ret_state in E. subst a'. destruct L as (t & Et).
    pose proof (bal_free li lh a (with_handles a (h :: a_freed a) (a_top a)) h B ltac:(unfold live; congruence) eq_refl eq_refl eq_refl) as B1.
    rewrite Et in B1. eapply bal_as; [exact B1|cbn; lia|cbn; lia].
  - intros B I E. apply Ret_state in E. subst a'. eapply bal_same; [exact B|reflexivity..].
Qed.
(** MPI_Finalize forgets the queues without giving their storage back. *)
Lemma spec_bal_finalize c tj li lh a Q a' hs : lists hs a -> bal li lh a -> spec c tj KFinalize a = Ret Q a' ->
  bal (li + total entries a hs) (lh + total queues a hs) a'.
Proof.
  intros Lh (hs' & Lh' & E1 & E2) E. cbn in E. injection E as _ <-. exists []. split; [split; [constructor|]; intros h; unfold live; cbn; tauto|].
  rewrite !(total_perm _ _ _ _ (lists_perm _ _ _ Lh Lh')). cbn [a_items a_heads total fold_right]. lia.
Qed.

Lemma bal_of li lh a hs : bal li lh a -> lists hs a -> a_items a = li + total entries a hs /\ a_heads a = lh + total queues a hs.
Proof. intros (hs' & L & E1 & E2) Lh. rewrite !(total_perm _ _ _ _ (lists_perm _ _ _ Lh L)). auto. Qed.
Lemma counters c tj s a : reach c tj s a -> lh_itemcount (s_lists s) = a_items a /\ lh_headcount (s_lists s) = a_heads a.
Proof. intros R. pose proof (reach_abs _ _ R) as A. split; [apply (ab_items A)|apply (ab_heads A)]. Qed.
Theorem C82_call_lemma c tj s a k o s' a' hs hs' : reach c tj s a -> does c tj s a k o s' a' -> k <> KFinalize ->
  NoDup hs -> (forall h, In h hs <-> a_obj a h <> None) -> NoDup hs' -> (forall h, In h hs' <-> a_obj a' h <> None) ->
  lh_itemcount (s_lists s') - total entries a' hs' = lh_itemcount (s_lists s) - total entries a hs /\
  lh_headcount (s_lists s') - total queues a' hs' = lh_headcount (s_lists s) - total queues a hs.
Proof.
  intros R (L & _ & R' & Q & E & _) NF N H N' H'. destruct (counters _ _ _ _ R) as [-> ->]. destruct (counters _ _ _ _ R') as [-> ->].
  assert (Lh : lists hs a) by (split; auto). assert (Lh' : lists hs' a') by (split; auto).
  assert (B : bal (a_items a - total entries a hs) (a_heads a - total queues a hs) a) by (exists hs; split; [auto|lia]).
  pose proof (spec_bal _ _ _ _ _ _ _ _ (reach_inv _ _ R) L NF B E) as B'. destruct (bal_of _ _ _ _ B' Lh') as [-> ->]. lia.
Qed.
Theorem C82_finalize_lemma c tj s a o s' a' : reach c tj s a -> does c tj s a KFinalize o s' a' ->
  lh_itemcount (s_lists s') = lh_itemcount (s_lists s) /\ lh_headcount (s_lists s') = lh_headcount (s_lists s) /\ (forall h, a_obj a' h = None).
Proof.
  intros R (L & _ & R' & Q & E & _). destruct (counters _ _ _ _ R) as [-> ->]. destruct (counters _ _ _ _ R') as [-> ->].
  cbn in E. injection E as _ <-. auto.
Qed.
Lemma leads_bal c tj s a l s' a' : leads c tj s a l s' a' -> reach c tj s a -> (forall o, ~ In (KFinalize, o) l) -> bal 0 0 a -> bal 0 0 a'.
Proof.
  induction 1 as [s a|s a k o s1 a1 l s2 a2 D _ IH]; intros R NF B; [auto|]. assert (D0 := D). destruct D as (L & _ & R1 & Q & E & _).
  apply IH; auto; [intros o' I; apply (NF o'); right; exact I|]. eapply spec_bal; eauto; [eapply reach_inv; eauto|].
  intros ->. apply (NF o). left. reflexivity.
Qed.
Lemma verify_false {D} (h : lheap D) : listitem_verify h = false <-> lh_itemcount h = 0 /\ lh_headcount h = 0.
Proof. unfold listitem_verify. rewrite orb_false_iff, !negb_false_iff, !Z.eqb_eq. tauto. Qed.
Lemma entries_pos o : 0 <= entries o. Proof. destruct o as [[k| |]|]; cbn; lia. Qed.
Lemma queues_pos o : 0 <= queues o. Proof. destruct o as [[k| |]|]; cbn; lia. Qed.
Lemma total_zero a : forall hs, total queues a hs = 0 <-> forall h, In h hs -> queues (a_obj a h) = 0.
Proof.
  assert (P : forall hs, 0 <= total queues a hs) by (induction hs as [|h hs IH]; [reflexivity|]; rewrite total_cons; pose proof (queues_pos (a_obj a h)); lia).
  induction hs as [|h hs IH]; [split; [intros _ ? []|reflexivity]|]. rewrite total_cons. pose proof (queues_pos (a_obj a h)). pose proof (P hs). split.
  - intros E x [<-|I]; [lia|]. apply IH; auto. lia.
  - intros A. rewrite (proj2 IH) by (intros x I; apply A; right; auto). rewrite A by (left; auto). reflexivity.
Qed.
Lemma total_entries a : forall hs, (forall h, In h hs -> queues (a_obj a h) = 0) -> total entries a hs = 0.
Proof.
  induction hs as [|h hs IH]; intros A; [reflexivity|]. rewrite total_cons, IH by (intros x I; apply A; right; auto).
  specialize (A h (or_introl eq_refl)). destruct (a_obj a h) as [[k| |]|]; cbn in *; lia.
Qed.
Theorem C82_history_lemma c tj hj lj rj m l s a : leads c tj (sys_start hj lj rj tj m) (a_start m) l s a -> (forall o, ~ In (KFinalize, o) l) ->
  let hs := fold_left held l [] in
  lh_itemcount (s_lists s) = total entries a hs /\ lh_headcount (s_lists s) = total queues a hs /\
  (listitem_verify (s_lists s) = false <-> forall h, comm_at a h = None).
Proof.
  intros R NF hs. pose proof (reach_start c tj hj lj rj m) as R0. destruct (leads_held _ _ _ _ _ _ _ R [] R0) as [Lh R1].
  { split; [constructor|]. intros h. unfold live. cbn. tauto. }
  fold hs in Lh. destruct (counters _ _ _ _ R1) as [E1 E2].
  assert (B : bal 0 0 a). { eapply leads_bal; eauto. exists []. split; [split; [constructor|]; intros h; unfold live; cbn; tauto|]. split; reflexivity. }
  destruct (bal_of _ _ _ _ B Lh) as [E3 E4]. assert (X1 : lh_itemcount (s_lists s) = total entries a hs) by lia.
  assert (X2 : lh_headcount (s_lists s) = total queues a hs) by lia. split; [exact X1|]. split; [exact X2|].
  rewrite verify_false, X1, X2. rewrite total_zero. split.
  - intros [_ A] h. unfold comm_at. destruct (a_obj a h) as [[k| |]|] eqn:Eo; auto. exfalso.
    assert (I : In h hs) by (apply (proj2 Lh); unfold live; congruence). apply A in I. rewrite Eo in I. discriminate.
  - intros A. assert (X : forall h, In h hs -> queues (a_obj a h) = 0).
    { intros h _. specialize (A h). unfold comm_at in A. destruct (a_obj a h) as [[k| |]|]; [discriminate|reflexivity..]. }
    split; [apply total_entries; exact X|exact X].
Qed.

Lemma go_leads c tj : forall ks s a os s' a', reach c tj s a -> go c tj ks s a = Some (os, s', a') -> leads c tj s a (combine ks os) s' a'.
Proof.
  induction ks as [|k ks IH]; intros s a os s' a' R G; cbn [go] in G.
  - injection G as <- <- <-. constructor.
  - destruct (legalb c tj k a) eqn:L; [|discriminate]. destruct (exec c k s) as [[o s1]| | | |] eqn:E; try discriminate.
    destruct (spec c tj k a) as [Q a1| |] eqn:Es; try discriminate. destruct (go c tj ks s1 a1) as [[[os1 s2] a2]|] eqn:G1; [|discriminate].
    injection G as <- <- <-. cbn [combine]. apply legalb_ok in L. destruct (SysFacts.ran _ _ _ _ _ R L E) as (a1' & D).
    assert (a1' = a1) by (destruct D as (_ & _ & _ & Q' & X & _); congruence). subst a1'. econstructor; [exact D|]. apply IH; auto. apply D.
Qed.
Lemma ex_leads ks : ex_ok ks = true -> leads default_cfg ex_tj ex_start (a_start ex_mem) (combine ks (ex_o ks)) (ex_s ks) (ex_a ks).
Proof.
  unfold ex_ok, ex_s, ex_a, ex_o. destruct (ex_go ks) as [[[o s] a]|] eqn:E; [|discriminate]. intros _. apply go_leads; [apply reach_start|exact E].
Qed.
