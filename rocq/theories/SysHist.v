(** Every specified step keeps the history invariant, so it holds after every sequence of legal calls of the model. *)
From Verif Require Import Base HandleSpec HandleExact TypeModel CopyModel SysModel CollModel SysCalls SysSpec SysLog SysInv SysAbs SysSim SysSim3.

Definition keeps {A} (e : sp A) : Prop := forall a x a', inv a -> e a = Ret x a' -> inv a'.

Lemma keeps_ret {A} (x : A) : keeps (sret x).
Proof. intros a y a' I E. injection E as _ <-. exact I. Qed.
Lemma keeps_bind {A B} (e : sp A) (f : A -> sp B) : keeps e -> (forall x, keeps (f x)) -> keeps (sbind e f).
Proof. intros He Hf a y a' I. unfold sbind. destruct (e a) as [x a1| |] eqn:E; try discriminate. apply Hf. eapply He; eauto. Qed.
Lemma keeps_abort {A} w : keeps (fun _ => @SAbort A w).
Proof. intros a x a' _ E. discriminate. Qed.
Lemma keeps_map {A} (f : A -> out -> Prop) e : keeps e -> keeps (smap f e).
Proof. intros H. apply keeps_bind; auto. intros; apply keeps_ret. Qed.

Lemma hw_same a a' : hw a -> a_freed a' = a_freed a -> a_top a' = a_top a -> (forall h, a_obj a' h <> None -> a_obj a h <> None) -> hw a'.
Proof. intros [W1 W2 W3 W4] E1 E2 O. constructor; rewrite ?E1, ?E2; auto. Qed.

(** Changes outside objects and log. *)
Lemma inv_env a a' : inv a -> a_obj a' = a_obj a -> a_freed a' = a_freed a -> a_top a' = a_top a -> a_log a' = a_log a -> a_clock a' = a_clock a ->
  a_made a' = a_made a -> inv a'.
Proof.
  intros I E1 E2 E3 E4 E5 E6. apply (inv_sub a); auto.
  - apply (hw_same a); auto; [apply (iv_hw _ I)|]. rewrite E1. auto.
  - unfold sub_state, comm_at, req_at. rewrite E1, E4, E5, E6. repeat split; auto. lia.
Qed.

Lemma xfer_inv c s n t d m u a x a' : s_xfer c s n t d m u a = Ret x a' -> exists m, a' = with_mem a m.
Proof. unfold s_xfer. destruct (xfer_res c a s n t d m u); try discriminate. intros E. injection E as _ <-. eauto. Qed.
Lemma alloc_inv f a x a' : s_alloc f a = Ret x a' -> exists fr top, next_handle (a_freed a) (a_top a) = Some (x, fr, top) /\ a' = set_obj (with_handles a fr top) x (Some (f x)).
Proof. unfold s_alloc. destruct (next_handle _ _) as [[[h fr] top]|]; [|discriminate]. intros E. injection E as <- <-. eauto. Qed.

(** A request that stands for no operation. *)
Lemma inv_new_null a h fr top q : inv a -> next_handle (a_freed a) (a_top a) = Some (h, fr, top) -> op_id q = None ->
  inv (set_obj (with_handles a fr top) h (Some (AReq q))).
Proof.
  intros I E O. destruct (hw_next _ _ _ _ (Some (AReq q)) (iv_hw _ I) E) as (N & _ & W). destruct (none_at _ _ N) as [N1 N2].
  set (a' := set_obj _ _ _) in *.
  assert (C : forall x, comm_at a' x = if x =? h then None else comm_at a x) by (intros x; exact (comm_at_set (with_handles a fr top) h (Some (AReq q)) x)).
  assert (R : forall x, req_at a' x = if x =? h then Some q else req_at a x) by (intros x; exact (req_at_set (with_handles a fr top) h (Some (AReq q)) x)).
  destruct I as [I1 [H1 H2 H3 H4 H5 H6] I2 I3 I4 I5 I6]. constructor; auto.
  - constructor; auto.
    + intros x k. rewrite C. destruct (x =? h); [discriminate|]. apply H2.
    + intros x k. rewrite C. destruct (x =? h); [discriminate|]. apply H3.
    + intros x q'. rewrite R. destruct (x =? h); [|apply H4]. intros X. injection X as <-. destruct q; try discriminate; exact Logic.I.
    + intros x y q1 q2 id. rewrite !R. destruct (Z.eqb_spec x h), (Z.eqb_spec y h); subst; auto.
      * intros X _ O1 _. congruence.
      * intros _ X _ O2. congruence.
      * apply H5.
    + intros x y k1 k2. rewrite !C. destruct (x =? h), (y =? h); try discriminate. apply H6.
  - intros x k p. rewrite C, R. destruct (x =? h); [discriminate|]. intros Ek Hp. pose proof (I2 _ _ _ Ek Hp).
    destruct (Z.eqb_spec (p_req p) h); [congruence|auto].
  - intros x k p. rewrite C, R. destruct (x =? h); [discriminate|]. intros Ek Hp. pose proof (I3 _ _ _ Ek Hp).
    destruct (Z.eqb_spec (p_req p) h); [congruence|auto].
  - intros x k. rewrite C. destruct (x =? h); [discriminate|]. apply I4.
  - intros x k p q1. rewrite C. destruct (x =? h); [discriminate|]. apply I6.
Qed.

Lemma comm_obj a h k : comm_at a h = Some k -> a_obj a h = Some (AComm k).
Proof. unfold comm_at. destruct (a_obj a h) as [[| |]|]; congruence. Qed.
Lemma req_obj a h q : req_at a h = Some q -> a_obj a h = Some (AReq q).
Proof. unfold req_at. destruct (a_obj a h) as [[| |]|]; congruence. Qed.

Lemma isend_keeps c b n t d g cm : keeps (s_isend c b n t d g cm).
Proof.
  intros a x a' I. unfold s_isend. destruct (negb (rank_ok d)); [discriminate|]. destruct (d =? MPI_PROC_NULL).
  { intros E. apply alloc_inv in E. destruct E as (fr & top & E & ->). apply inv_new_null; auto. }
  destruct (comm_at a cm) as [k|] eqn:Ek; [|discriminate].
  destruct (first_such _ (k_recvs k)) as [[[bf p] e]|] eqn:Ef; unfold sbind.
  - destruct (s_alloc _ a) as [h a1| |] eqn:Ea; try discriminate. apply alloc_inv in Ea. destruct Ea as (fr & top & Ea & E1).
    destruct (s_xfer c b n t (p_buf p) (p_count p) (p_type p) a1) as [u a2| |] eqn:Ex; try discriminate. apply xfer_inv in Ex. destruct Ex as (m & ->). subst a1.
    intros X. injection X as <- <-. apply first_such_some in Ef. destruct Ef as (Eq & Fp & Fb).
    destruct (hw_next _ _ _ _ (Some (AReq (QSent (a_clock a)))) (iv_hw _ I) Ea) as (N & _ & W). destruct (none_at _ _ N) as [N1 N2].
    pose proof (inv_q a Rcv cm k p I Ek ltac:(cbn; rewrite Eq; apply in_or_app; simpl; auto)) as Pq.
    assert (Nhc : h <> cm) by congruence. assert (Nhp : h <> p_req p) by congruence.
    assert (Npc : p_req p <> cm) by (intros X; apply req_comm in Pq; congruence).
    apply (inv_match a _ cm k (mkAcomm (k_uid k) (k_sends k) (bf ++ e)) Snd h g bf p e); auto.
    + apply (hw_same _ _ W); auto. intros y. cbn. unfold upd.
      destruct (Z.eqb_spec y cm) as [->|]; [intros _; destruct (Z.eqb_spec cm h); [discriminate|]; rewrite (comm_obj _ _ _ Ek); discriminate|].
      destruct (Z.eqb_spec y (p_req p)) as [->|]; auto. intros _. destruct (Z.eqb_spec (p_req p) h); [discriminate|]. rewrite (req_obj _ _ _ Pq). discriminate.
    + intros y. unfold comm_at. cbn. unfold upd. destruct (Z.eqb_spec y cm); auto.
      destruct (Z.eqb_spec y (p_req p)) as [->|]; [rewrite (req_obj _ _ _ Pq); auto|]. destruct (Z.eqb_spec y h) as [->|]; auto; rewrite N; auto.
    + intros y. unfold req_at. cbn. unfold upd. destruct (Z.eqb_spec y cm) as [->|].
      * destruct (Z.eqb_spec cm (p_req p)); [congruence|]. destruct (Z.eqb_spec cm h); [congruence|]. rewrite (comm_obj _ _ _ Ek). auto.
      * destruct (Z.eqb_spec y (p_req p)); auto. destruct (Z.eqb_spec y h); auto.
  - destruct (s_alloc _ a) as [h a1| |] eqn:Ea; try discriminate. apply alloc_inv in Ea. destruct Ea as (fr & top & Ea & ->).
    intros X. injection X as <- <-. pose proof (first_such_none _ _ Ef) as Fb.
    destruct (hw_next _ _ _ _ (Some (AReq (QPending Snd (k_uid k) (a_clock a)))) (iv_hw _ I) Ea) as (N & _ & W). destruct (none_at _ _ N) as [N1 N2].
    assert (Nhc : h <> cm) by congruence.
    apply (inv_post a _ cm k (mkAcomm (k_uid k) (k_sends k ++ [mkPend (a_clock a) h b n t g]) (k_recvs k)) Snd h g (mkPend (a_clock a) h b n t g)); auto.
    + apply (hw_same _ _ W); auto. intros y. cbn. unfold upd.
      destruct (Z.eqb_spec y cm) as [->|]; [intros _; destruct (Z.eqb_spec cm h); [discriminate|]; rewrite (comm_obj _ _ _ Ek); discriminate|]. auto.
    + intros y. unfold comm_at. cbn. unfold upd. destruct (Z.eqb_spec y cm); auto. destruct (Z.eqb_spec y h) as [->|]; auto; rewrite N; auto.
    + intros y. unfold req_at. cbn. unfold upd. destruct (Z.eqb_spec y cm) as [->|].
      * destruct (Z.eqb_spec cm h); [congruence|]. rewrite (comm_obj _ _ _ Ek). auto.
      * destruct (Z.eqb_spec y h); auto.
Qed.

Lemma irecv_keeps c b n t d g cm : keeps (s_irecv c b n t d g cm).
Proof.
  intros a x a' I. unfold s_irecv. destruct (negb (source_ok d)); [discriminate|]. destruct (d =? MPI_PROC_NULL).
  { intros E. apply alloc_inv in E. destruct E as (fr & top & E & ->). apply inv_new_null; auto. }
  destruct (comm_at a cm) as [k|] eqn:Ek; [|discriminate].
  destruct (first_such _ (k_sends k)) as [[[bf p] e]|] eqn:Ef; unfold sbind.
  - destruct (s_alloc _ a) as [h a1| |] eqn:Ea; try discriminate. apply alloc_inv in Ea. destruct Ea as (fr & top & Ea & E1).
    destruct (s_xfer c (p_buf p) n t b n t a1) as [u a2| |] eqn:Ex; try discriminate. apply xfer_inv in Ex. destruct Ex as (m & ->). subst a1.
    intros X. injection X as <- <-. apply first_such_some in Ef. destruct Ef as (Eq & Fp & Fb).
    destruct (hw_next _ _ _ _ (Some (AReq (QReceived (a_clock a) (p_tag p)))) (iv_hw _ I) Ea) as (N & _ & W). destruct (none_at _ _ N) as [N1 N2].
    pose proof (inv_q a Snd cm k p I Ek ltac:(cbn; rewrite Eq; apply in_or_app; simpl; auto)) as Pq.
    assert (Nhc : h <> cm) by congruence. assert (Nhp : h <> p_req p) by congruence.
    assert (Npc : p_req p <> cm) by (intros X; apply req_comm in Pq; congruence).
    apply (inv_match a _ cm k (mkAcomm (k_uid k) (bf ++ e) (k_recvs k)) Rcv h g bf p e); auto.
    + apply (hw_same _ _ W); auto. intros y. cbn. unfold upd.
      destruct (Z.eqb_spec y cm) as [->|]; [intros _; destruct (Z.eqb_spec cm h); [discriminate|]; rewrite (comm_obj _ _ _ Ek); discriminate|].
      destruct (Z.eqb_spec y (p_req p)) as [->|]; auto. intros _. destruct (Z.eqb_spec (p_req p) h); [discriminate|]. rewrite (req_obj _ _ _ Pq). discriminate.
    + intros y. unfold comm_at. cbn. unfold upd. destruct (Z.eqb_spec y cm); auto.
      destruct (Z.eqb_spec y (p_req p)) as [->|]; [rewrite (req_obj _ _ _ Pq); auto|]. destruct (Z.eqb_spec y h) as [->|]; auto; rewrite N; auto.
    + intros y. unfold req_at. cbn. unfold upd. destruct (Z.eqb_spec y cm) as [->|].
      * destruct (Z.eqb_spec cm (p_req p)); [congruence|]. destruct (Z.eqb_spec cm h); [congruence|]. rewrite (comm_obj _ _ _ Ek). auto.
      * destruct (Z.eqb_spec y (p_req p)); auto. destruct (Z.eqb_spec y h); auto.
  - destruct (s_alloc _ a) as [h a1| |] eqn:Ea; try discriminate. apply alloc_inv in Ea. destruct Ea as (fr & top & Ea & ->).
    intros X. injection X as <- <-. pose proof (first_such_none _ _ Ef) as Fb.
    destruct (hw_next _ _ _ _ (Some (AReq (QPending Rcv (k_uid k) (a_clock a)))) (iv_hw _ I) Ea) as (N & _ & W). destruct (none_at _ _ N) as [N1 N2].
    assert (Nhc : h <> cm) by congruence.
    apply (inv_post a _ cm k (mkAcomm (k_uid k) (k_sends k) (k_recvs k ++ [mkPend (a_clock a) h b n t g])) Rcv h g (mkPend (a_clock a) h b n t g)); auto.
    + apply (hw_same _ _ W); auto. intros y. cbn. unfold upd.
      destruct (Z.eqb_spec y cm) as [->|]; [intros _; destruct (Z.eqb_spec cm h); [discriminate|]; rewrite (comm_obj _ _ _ Ek); discriminate|]. auto.
    + intros y. unfold comm_at. cbn. unfold upd. destruct (Z.eqb_spec y cm); auto. destruct (Z.eqb_spec y h) as [->|]; auto; rewrite N; auto.
    + intros y. unfold req_at. cbn. unfold upd. destruct (Z.eqb_spec y cm) as [->|].
      * destruct (Z.eqb_spec cm h); [congruence|]. rewrite (comm_obj _ _ _ Ek). auto.
      * destruct (Z.eqb_spec y h); auto.
Qed.

Lemma test_keeps r : keeps (s_test r).
Proof.
  intros a x a' I. unfold s_test. destruct (r =? MPI_REQUEST_NULL); [intros E; injection E as _ <-; exact I|].
  destruct (req_at a r) as [q|] eqn:Er; [|discriminate]. destruct (report q) as [w|] eqn:Ew; unfold sbind, s_free; [|intros E; injection E as _ <-; exact I].
  intros E. injection E as _ <-. apply inv_free; auto; [rewrite (req_obj _ _ _ Er); discriminate|].
  intros sd uid id E. rewrite Er in E. injection E as ->. discriminate.
Qed.
Lemma wait_keeps w0 r : keeps (s_wait w0 r).
Proof. apply keeps_bind; [apply test_keeps|]. intros [[r' f] w]. destruct (f =? 0); [apply keeps_abort|apply keeps_ret]. Qed.
Lemma testany_keeps : forall n rest done, keeps (s_testany n done rest).
Proof.
  induction n as [|n IH]; intros rest done; cbn [s_testany]; [apply keeps_ret|]. destruct rest as [|r rest]; [apply keeps_ret|].
  apply keeps_bind; [apply test_keeps|]. intros [[r' f] w]. destruct (f =? 0); [apply IH|apply keeps_ret].
Qed.
Lemma tests_keeps : forall n rest, keeps (s_tests n rest).
Proof.
  induction n as [|n IH]; intros rest; cbn [s_tests]; [apply keeps_ret|]. destruct rest as [|r rest]; [apply keeps_ret|].
  apply keeps_bind; [apply test_keeps|]. intros [[r' f] w]. apply keeps_bind; [apply IH|]. intros [[? ?] ?]. apply keeps_ret.
Qed.
Lemma waitall_keeps : forall n rest, keeps (s_waitall n rest).
Proof.
  induction n as [|n IH]; intros rest; cbn [s_waitall]; [apply keeps_ret|]. destruct rest as [|r rest]; [apply keeps_ret|].
  apply keeps_bind; [apply wait_keeps|]. intros [r' w]. apply keeps_bind; [apply IH|]. intros [? ?]. apply keeps_ret.
Qed.
Lemma comm_new_keeps : keeps s_comm_new.
Proof.
  intros a x a' I. unfold s_comm_new, sbind. destruct (s_alloc _ a) as [h a1| |] eqn:Ea; try discriminate.
  apply alloc_inv in Ea. destruct Ea as (fr & top & Ea & ->). intros E. injection E as <- <-. apply (inv_new_comm a h fr top I Ea).
Qed.
Lemma startup_keeps : keeps s_startup.
Proof.
  apply keeps_bind; [apply comm_new_keeps|]. intros h. destruct (h =? MPI_COMM_WORLD); [|apply keeps_abort].
  intros a x a' I E. injection E as _ <-. apply (inv_env a); auto.
Qed.
Lemma comm_free_keeps h : keeps (s_comm_free h).
Proof.
  intros a x a' I. unfold s_comm_free, sbind, s_free. destruct (comm_at a h) as [k|] eqn:Ek; [|discriminate].
  intros E. injection E as <- <-. apply (inv_env (set_obj (with_handles a (h :: a_freed a) (a_top a)) h None)); auto.
  apply inv_free; auto; [rewrite (comm_obj _ _ _ Ek); discriminate|]. intros sd uid id E. apply comm_req in Ek. congruence.
Qed.
Lemma finalize_keeps : keeps s_finalize.
Proof.
  intros a x a' I E. injection E as _ <-. apply (inv_sub a); auto.
  - constructor; cbn; try tauto; try lia. constructor.
  - repeat split; cbn; try discriminate; auto; lia.
Qed.
Lemma iprobe_keeps so g cm : keeps (s_iprobe so g cm).
Proof.
  intros a x a' I. unfold s_iprobe. destruct (negb _); [discriminate|]. destruct (comm_at a cm) as [k|]; [|discriminate].
  destruct (first_such _ _) as [[[b p] e]|]; intros E; injection E as _ <-; exact I.
Qed.
Lemma type_create_keeps c tj k : keeps (s_type_create c tj k).
Proof.
  intros a x a' I. unfold s_type_create. destruct (next_handle (a_freed a) (a_top a)) as [p|]; [|discriminate].
  destruct (make_type c tj a k) as [t| | | |]; try discriminate. unfold sbind.
  destruct (s_alloc _ a) as [h a1| |] eqn:Ea; try discriminate. apply alloc_inv in Ea. destruct Ea as (fr & top & Ea & ->).
  intros E. injection E as <- <-. apply (inv_env (set_obj (with_handles a fr top) h (Some (AType t)))); auto. apply inv_new_type; auto.
Qed.
Lemma type_commit_keeps h : keeps (s_type_commit h).
Proof.
  intros a x a' I. unfold s_type_commit. destruct (a_obj a h) as [[k|q|t]|] eqn:Eo; try (intros E; injection E as _ <-; exact I).
  intros E. injection E as _ <-.
  assert (Cn : comm_at a h = None /\ req_at a h = None) by (unfold comm_at, req_at; rewrite Eo; auto). destruct Cn as [Cn Rn].
  apply (inv_sub a); auto.
  - apply (hw_same a); auto; [apply (iv_hw _ I)|]. intros y. cbn. unfold upd. destruct (Z.eqb_spec y h) as [->|]; auto. congruence.
  - assert (C : forall x, comm_at (set_obj a h (Some (AType (committed t)))) x = comm_at a x).
    { intros y. rewrite comm_at_set. destruct (Z.eqb_spec y h) as [->|]; auto. }
    assert (R : forall x, req_at (set_obj a h (Some (AType (committed t)))) x = req_at a x).
    { intros y. rewrite req_at_set. destruct (Z.eqb_spec y h) as [->|]; auto. }
    unfold sub_state. split; [intros y k; rewrite C; auto|]. split; [intros y k; rewrite R; auto|]. split; [intros y k p _ _; apply R|].
    repeat split; cbn; auto. lia.
Qed.
Lemma query_keeps c h q : keeps (s_query c h q).
Proof.
  intros a x a' I. unfold s_query. destruct (type_at c a h); [|discriminate]. destruct (q t); try discriminate. intros E; injection E as _ <-; exact I.
Qed.

Lemma Ret_state {A} (x y : A) a b : Ret x a = Ret y b -> b = a.
Proof. congruence. Qed.

Lemma moves_state {A} (f : astate -> res (mem * A)) a x a' : s_moves f a = Ret x a' -> exists m, a' = with_mem a m.
Proof. unfold s_moves. destruct (f a) as [[m y]| | | |]; try discriminate. intros E. apply Ret_state in E. eauto. Qed.
Lemma moves_keeps {A} (f : astate -> res (mem * A)) : keeps (s_moves f).
Proof. intros a x a' I E. apply moves_state in E. destruct E as [m ->]. apply (inv_env a); auto. Qed.
Lemma cart_keeps n dims : keeps (s_cart n dims).
Proof. unfold s_cart. destruct (existsb _ _); [intros a x a' _ E; discriminate|apply comm_new_keeps]. Qed.

Theorem spec_keeps c tj k a Q a' : inv a -> legal c tj k a -> spec c tj k a = Ret Q a' -> inv a'.
Proof.
  intros I L. revert I.
  assert (Snd_keeps : forall b n t d g cm, keeps (s_send c b n t d g cm)).
  { intros. apply keeps_bind; [apply isend_keeps|]. intros r. apply keeps_bind; [apply wait_keeps|]. intros. apply keeps_ret. }
  assert (Simple : forall e : sp (out -> Prop), keeps e -> inv a -> e a = Ret Q a' -> inv a') by (intros e He Ia Ee; eapply He; eauto).
  destruct k; cbn [spec legal] in *; 
    match goal with |- _ -> smap _ (s_request_free _) _ = _ -> _ => idtac | |- _ -> smap _ (s_type_free _) _ = _ -> _ => idtac | _ => try (apply Simple; apply keeps_map) end;
    auto using startup_keeps, finalize_keeps, comm_new_keeps, comm_free_keeps, isend_keeps, irecv_keeps, test_keeps, wait_keeps, testany_keeps,
      tests_keeps, waitall_keeps, iprobe_keeps, type_create_keeps, type_commit_keeps, query_keeps, @moves_keeps, cart_keeps.
  - intros I E. apply Ret_state in E. subst a'. exact I.
  - destruct (_ || _); [apply keeps_ret|apply comm_new_keeps].
  - destruct (_ =? _); [apply keeps_ret|apply comm_new_keeps].
  - destruct (_ && _); [apply keeps_ret|apply comm_new_keeps].
  - apply keeps_bind; [apply isend_keeps|]. intros r b y b' Ib. destruct (complete b r); [|discriminate]. intros E. injection E as _ <-. exact Ib.
  - apply keeps_bind; [apply irecv_keeps|]. intros r. apply keeps_bind; [apply wait_keeps|]. intros [? ?]. apply keeps_ret.
  - apply keeps_bind; [apply irecv_keeps|]. intros r. apply keeps_bind; [apply Snd_keeps|]. intros _. apply keeps_bind; [apply wait_keeps|]. intros [? ?]. apply keeps_ret.
  - apply keeps_bind; [apply testany_keeps|]. intros [[? f] ?]. destruct (f =? 0); [apply keeps_abort|apply keeps_ret].
  - intros I. unfold smap, sbind, s_request_free. unfold complete in L. destruct (Z.eqb_spec req MPI_REQUEST_NULL) as [|Nr].
    + cbn [sret]. intros E. apply Ret_state in E. subst a'. exact I.
    + cbn [orb] in L. unfold sbind, s_free. cbn [sret]. intros E. apply Ret_state in E. subst a'. destruct (req_at a req) as [q|] eqn:Er; [|discriminate].
      apply inv_free; auto; [rewrite (req_obj _ _ _ Er); discriminate|]. intros sd uid id X. rewrite Er in X. injection X as ->. discriminate.
  - apply keeps_bind; [apply iprobe_keeps|]. intros [f w]. destruct (f =? 0); [apply keeps_abort|apply keeps_ret].
  - intros I. unfold smap, sbind, s_type_free, sbind, s_free. cbn [sret]. intros E. apply Ret_state in E. subst a'. destruct L as (t & Et).
    apply inv_free; auto; [congruence|]. unfold req_at. rewrite Et. discriminate.
  - intros I E. apply Ret_state in E. subst a'. apply (inv_env a); auto.
Qed.
