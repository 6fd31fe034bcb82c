(** What single calls do in a reachable state: isolation, MPI_PROC_NULL, bad ranks, completion, blocking calls, probes. *)
From Verif Require Import Base HandleSpec HandleExact TypeModel CopyModel SysModel CollModel SysCalls SysSpec SysLog SysReach SysInv SysAbs SysSim SysSim2 SysSim3 SysHist SysFacts SysFacts2.

Lemma live_pos a r o : inv a -> a_obj a r = Some o -> 1 <= r.
Proof. intros I E. destruct (hw_live _ (iv_hw _ I) r) as [H _]; [congruence|lia]. Qed.
Lemma req_pos a r q : inv a -> req_at a r = Some q -> (r =? MPI_REQUEST_NULL) = false.
Proof. intros I E. apply req_obj in E. pose proof (live_pos _ _ _ I E). apply Z.eqb_neq. unfold MPI_REQUEST_NULL. lia. Qed.
Lemma finished_report a r q : inv a -> req_at a r = Some q -> (finished a q <-> report q <> None).
Proof.
  intros I E. pose proof (hy_req _ (iv_hist _ I) _ _ E) as K. unfold finished. destruct q; cbn in *.
  - split; [intros F; destruct K as [_ K]; contradiction|congruence].
  - split; [discriminate|]. intros _. destruct K as (u & t & rid & _ & Hi). exists id, rid. auto.
  - split; [discriminate|]. intros _. destruct K as (u & t & sid & _ & Hi & _). exists sid, id. auto.
  - split; [discriminate|auto].
  - split; [discriminate|auto].
Qed.
Lemma finished_dec a r q : inv a -> req_at a r = Some q -> finished a q \/ ~ finished a q.
Proof. intros I E. rewrite (finished_report _ _ _ I E). destruct (report q); [left; congruence|right; auto]. Qed.

Definition freed_at (a : astate) (h : Z) : astate := set_obj (with_handles a (h :: a_freed a) (a_top a)) h None.
Lemma test_done a r q w : inv a -> req_at a r = Some q -> report q = Some w -> s_test r a = Ret (MPI_REQUEST_NULL, 1, w) (freed_at a r).
Proof. intros I E R. unfold s_test. rewrite (req_pos _ _ _ I E), E, R. reflexivity. Qed.
Lemma test_pending a r q : inv a -> req_at a r = Some q -> report q = None -> s_test r a = Ret (r, 0, NoWrite) a.
Proof. intros I E R. unfold s_test. rewrite (req_pos _ _ _ I E), E, R. reflexivity. Qed.
Lemma wait_done msg a r q w : inv a -> req_at a r = Some q -> report q = Some w -> s_wait msg r a = Ret (MPI_REQUEST_NULL, w) (freed_at a r).
Proof. intros I E R. unfold s_wait, sbind. rewrite (test_done _ _ _ _ I E R). reflexivity. Qed.
Lemma wait_pending msg a r q : inv a -> req_at a r = Some q -> report q = None -> s_wait msg r a = SAbort msg.
Proof. intros I E R. unfold s_wait, sbind. rewrite (test_pending _ _ _ I E R). reflexivity. Qed.
Lemma freed_released a r : released r a (freed_at a r).
Proof. apply s_free_released. Qed.

Section Facts.
Context {c : cfg} {tj : Z -> tjunk}.
Notation reach := (SysReach.reach c tj).
Notation does := (SysReach.does c tj).

Lemma does_kept s a k o s' a' : reach s a -> does s a k o s' a' -> k <> KFinalize -> kept (comm_of k) (reqs_of k) (types_of k) a a'.
Proof. intros R (L & _ & _ & Q & E & _) N. eapply spec_kept; eauto. eapply reach_inv; eauto. Qed.
Lemma does_reach s a k o s' a' : does s a k o s' a' -> reach s' a'. Proof. intros (_ & _ & R & _). exact R. Qed.

(** *** C14 *)
Theorem C14_lemma s a h kk k o s' a' : reach s a -> comm_at a h = Some kk -> does s a k o s' a' -> k <> KFinalize -> comm_of k <> Some h ->
  comm_at a' h = Some kk /\
  (forall x sd id, req_at a x = Some (QPending sd (k_uid kk) id) -> req_at a' x = Some (QPending sd (k_uid kk) id)).
Proof.
  intros R E D N C. pose proof (does_kept _ _ _ _ _ _ R D N) as K. split; [apply (kp_comm _ _ _ _ _ K); auto|].
  intros x sd id. eapply (kp_pend _ _ _ _ _ K); eauto.
Qed.

(** *** C15 *)
Lemma does_intro k s a Q a' o : reach s a -> legal c tj k a -> spec c tj k a = Ret Q a' -> (forall o', Q o' -> o' = o) -> exists s', does s a k o s' a'.
Proof. intros R L E U. destruct (run k s a Q a' R L E) as (o' & s' & D & H). rewrite (U _ H) in D. exists s'. exact D. Qed.
Lemma isend_null a b n t g cm : inv a -> has_handle a -> exists h a', s_isend c b n t MPI_PROC_NULL g cm a = Ret h a' /\ added h (AReq QNullSend) a a'.
Proof.
  intros I H. destruct (handle_next _ I H) as (h & fr & top & En & N & B). unfold s_isend. change (negb (rank_ok MPI_PROC_NULL)) with false. change (MPI_PROC_NULL =? MPI_PROC_NULL) with true.
  unfold s_alloc. rewrite En. eexists h, _. split; [reflexivity|]. exact (new_added a h fr top _ I En).
Qed.
Lemma irecv_null a b n t g cm : inv a -> has_handle a -> exists h a', s_irecv c b n t MPI_PROC_NULL g cm a = Ret h a' /\ added h (AReq QNullRecv) a a'.
Proof.
  intros I H. destruct (handle_next _ I H) as (h & fr & top & En & N & B). unfold s_irecv. change (negb (source_ok MPI_PROC_NULL)) with false. change (MPI_PROC_NULL =? MPI_PROC_NULL) with true.
  unfold s_alloc. rewrite En. eexists h, _. split; [reflexivity|]. exact (new_added a h fr top _ I En).
Qed.
Lemma legal_isend_null a b n t g cm : known a cm -> legal_isend c b n t MPI_PROC_NULL g cm a.
Proof. intros K. split; auto. intros X. discriminate X. Qed.
Lemma legal_irecv_null a b n t g cm : known a cm -> legal_irecv c b n t MPI_PROC_NULL g cm a.
Proof. intros K. split; auto. intros [X|X]; discriminate X. Qed.
Lemma added_req h q a a' : added h (AReq q) a a' -> req_at a' h = Some q.
Proof. intros (_ & _ & E & _). unfold req_at. rewrite E. reflexivity. Qed.
Lemma added_released h o a b : added h o a b -> unchanged a (freed_at b h).
Proof.
  intros (_ & N & E & Oth & M & L). split; [|split; [exact M|exact L]]. intros x. cbn. unfold upd. destruct (Z.eqb_spec x h) as [->|Nx]; [symmetry; exact N|apply Oth; auto].
Qed.

Theorem C15_isend_lemma s a b n t g cm : reach s a -> has_handle a -> known a cm ->
  exists h s' a', does s a (KIsend b n t MPI_PROC_NULL g cm) (VInt h) s' a' /\ added h (AReq QNullSend) a a'.
Proof.
  intros R H K. destruct (isend_null _ b n t g cm (reach_inv _ _ R) H) as (h & a' & E & A).
  destruct (does_intro (KIsend b n t MPI_PROC_NULL g cm) s a (is VInt h) a' (VInt h) R) as (s' & D); [apply legal_isend_null; auto|apply smap_run; exact E|auto|].
  exists h, s', a'. auto.
Qed.
Theorem C15_irecv_lemma s a b n t g cm : reach s a -> has_handle a -> known a cm ->
  exists h s' a', does s a (KIrecv b n t MPI_PROC_NULL g cm) (VInt h) s' a' /\ added h (AReq QNullRecv) a a'.
Proof.
  intros R H K. destruct (irecv_null _ b n t g cm (reach_inv _ _ R) H) as (h & a' & E & A).
  destruct (does_intro (KIrecv b n t MPI_PROC_NULL g cm) s a (is VInt h) a' (VInt h) R) as (s' & D); [apply legal_irecv_null; auto|apply smap_run; exact E|auto|].
  exists h, s', a'. auto.
Qed.
Definition is_send (K : Z -> Z -> Z -> Z -> Z -> Z -> call) : Prop := K = KSend \/ K = KSsend \/ K = KRsend.
Lemma send_spec K b n t d g cm : is_send K -> (forall a, legal c tj (K b n t d g cm) a = legal_isend c b n t d g cm a) /\ spec c tj (K b n t d g cm) = smap unit_out (s_send c b n t d g cm).
Proof. intros [-> | [-> | ->]]; split; reflexivity. Qed.
Theorem C15_send_lemma K s a b n t g cm : is_send K -> reach s a -> has_handle a -> known a cm ->
  exists s' a', does s a (K b n t MPI_PROC_NULL g cm) VUnit s' a' /\ unchanged a a'.
Proof.
  intros IK R H K0. destruct (send_spec K b n t MPI_PROC_NULL g cm IK) as [L S]. destruct (isend_null _ b n t g cm (reach_inv _ _ R) H) as (h & a1 & E & A).
  pose proof (isend_keeps _ _ _ _ _ _ _ _ _ _ (reach_inv _ _ R) E) as I1.
  destruct (does_intro (K b n t MPI_PROC_NULL g cm) s a (unit_out tt) (freed_at a1 h) VUnit R) as (s' & D).
  - rewrite L. apply legal_isend_null; auto.
  - rewrite S. apply smap_run. unfold s_send, sbind. rewrite E. rewrite (wait_done _ _ _ _ _ I1 (added_req _ _ _ _ A) eq_refl). reflexivity.
  - auto.
  - exists s', (freed_at a1 h). split; auto. eapply added_released; eauto.
Qed.
Theorem C15_recv_lemma s a b n t g cm st : reach s a -> has_handle a -> known a cm -> st <> SBad ->
  exists s' a' st', does s a (KRecv b n t MPI_PROC_NULL g cm st) (VStatus (with_count st' n)) s' a' /\
    wrote st (Write (Some MPI_PROC_NULL) (Some MPI_ANY_TAG)) st' /\ unchanged a a'.
Proof.
  intros R H K0 Ns. destruct (irecv_null _ b n t g cm (reach_inv _ _ R) H) as (h & a1 & E & A).
  pose proof (irecv_keeps _ _ _ _ _ _ _ _ _ _ (reach_inv _ _ R) E) as I1.
  destruct (run (KRecv b n t MPI_PROC_NULL g cm st) s a (fun o => exists st', wrote st (Write (Some MPI_PROC_NULL) (Some MPI_ANY_TAG)) st' /\ o = VStatus (with_count st' n)) (freed_at a1 h) R) as (o & s' & D & st' & W & ->).
  - split; auto. apply legal_irecv_null; auto.
  - cbn [spec]. unfold smap, sbind, s_recv, sbind. rewrite E. rewrite (wait_done _ _ _ _ _ I1 (added_req _ _ _ _ A) eq_refl). reflexivity.
  - exists s', (freed_at a1 h), st'. split; auto. split; auto. eapply added_released; eauto.
Qed.

(** *** C16 *)
Lemma isend_bad a b n t d g cm : d <> 0 -> d <> MPI_PROC_NULL -> s_isend c b n t d g cm a = SAbort "MPI_Isend: send to".
Proof. intros A B. unfold s_isend, rank_ok. apply Z.eqb_neq in A, B. rewrite A, B. reflexivity. Qed.
Lemma irecv_bad a b n t d g cm : d <> 0 -> d <> MPI_ANY_SOURCE -> d <> MPI_PROC_NULL -> s_irecv c b n t d g cm a = SAbort "MPI_Irecv: bad source".
Proof. intros A B C. unfold s_irecv, source_ok. apply Z.eqb_neq in A, B, C. rewrite A, B, C. reflexivity. Qed.
Lemma legal_isend_bad a b n t d g cm : known a cm -> d <> 0 -> legal_isend c b n t d g cm a.
Proof. intros K N. split; auto. intros X. contradiction. Qed.
Lemma legal_irecv_bad a b n t d g cm : known a cm -> d <> 0 -> d <> MPI_ANY_SOURCE -> legal_irecv c b n t d g cm a.
Proof. intros K N M. split; auto. intros [X|X]; contradiction. Qed.

Theorem C16_send_lemma K s a b n t d g cm : is_send K \/ K = KIsend \/ K = KIrsend -> reach s a -> known a cm -> d <> 0 -> d <> MPI_PROC_NULL ->
  exec c (K b n t d g cm) s = Abort "MPI_Isend: send to".
Proof.
  intros IK R Kn N0 N1. assert (L := legal_isend_bad a b n t d g cm Kn N0). assert (E := isend_bad a b n t d g cm N0 N1).
  destruct IK as [IK|[-> | ->]].
  - destruct (send_spec K b n t d g cm IK) as [L1 S]. apply (run_abort (tj := tj) _ _ a); auto; [rewrite L1; exact L|]. rewrite S. apply smap_abort. unfold s_send, sbind. rewrite E. reflexivity.
  - apply (run_abort (tj := tj) _ _ a); auto. apply smap_abort. exact E.
  - apply (run_abort (tj := tj) _ _ a); auto. apply smap_abort. unfold s_irsend, sbind. rewrite E. reflexivity.
Qed.
Theorem C16_recv_lemma s a b n t d g cm : reach s a -> known a cm -> d <> 0 -> d <> MPI_ANY_SOURCE -> d <> MPI_PROC_NULL ->
  exec c (KIrecv b n t d g cm) s = Abort "MPI_Irecv: bad source" /\
  (forall st, st <> SBad -> exec c (KRecv b n t d g cm st) s = Abort "MPI_Irecv: bad source") /\
  (forall sb sn sty de sg st, st <> SBad -> exec c (KSendrecv sb sn sty de sg b n t d g cm st) s = Abort "MPI_Irecv: bad source").
Proof.
  intros R Kn N0 N1 N2. assert (L := legal_irecv_bad a b n t d g cm Kn N0 N1). assert (E := irecv_bad a b n t d g cm N0 N1 N2).
  split; [|split].
  - apply (run_abort (tj := tj) _ _ a); auto. apply smap_abort. exact E.
  - intros st Ns. apply (run_abort (tj := tj) _ _ a); auto; [split; auto|]. apply smap_abort. unfold s_recv, sbind. rewrite E. reflexivity.
  - intros sb sn sty de sg st Ns. apply (run_abort (tj := tj) _ _ a); auto; [split; [auto|split; [auto|rewrite E; exact Logic.I]]|]. apply smap_abort. unfold s_sendrecv, sbind. rewrite E. reflexivity.
Qed.
Theorem C16_probe_lemma s a d g cm st : reach s a -> known a cm -> st <> SBad -> d <> 0 -> d <> MPI_ANY_SOURCE ->
  exec c (KIprobe d g cm st) s = Abort "MPI_Irecv: bad source" /\ exec c (KProbe d g cm st) s = Abort "MPI_Irecv: bad source".
Proof.
  intros R Kn Ns N0 N1. assert (L : known a cm /\ st <> SBad /\ (d = 0 \/ d = MPI_ANY_SOURCE -> exists k, comm_at a cm = Some k)) by (split; [auto|split; [auto|intros [X|X]; contradiction]]).
  assert (E : s_iprobe d g cm a = SAbort "MPI_Irecv: bad source") by (unfold s_iprobe; apply Z.eqb_neq in N0, N1; rewrite N0, N1; reflexivity).
  split; apply (run_abort (tj := tj) _ _ a); auto; apply smap_abort; auto. unfold s_probe, sbind. rewrite E. reflexivity.
Qed.

(** *** C18, C19 *)
Lemma test_same s a r q st : reach s a -> req_at a r = Some q -> report q = None -> exec c (KTest r st) s = Ok (VTest r 0 st, s).
Proof.
  intros R Er Rq. pose proof (reach_abs _ _ R) as A. pose proof (req_pos _ _ _ (reach_inv _ _ R) Er) as Nr.
  cbn [exec]. unfold mmap, MPI_Test. rewrite Nr. pose proof (req_obj _ _ _ Er) as Eo.
  destruct (ab_ex A) as (lv & f & ids & g & T & Lv & LI & Rl). assert (Lr : In r lv) by (apply Lv; congruence).
  destruct (rl_req Rl Eo) as (ro & Ero & RO). unfold mbind, pure. rewrite (handle_ptr_live _ _ T Lr). cbn [bind slot_of].
  rewrite (get_req_ok _ _ _ T Lr Ero). cbn [bind]. assert (C0 : r_complete ro = 0) by (destruct q; cbn [req_ok report] in *; try discriminate; tauto).
  rewrite C0. reflexivity.
Qed.
Theorem C18_test_lemma s a r q st : reach s a -> req_at a r = Some q -> st <> SBad ->
  (finished a q -> exists w st' s' a', does s a (KTest r st) (VTest MPI_REQUEST_NULL 1 st') s' a' /\ report q = Some w /\ wrote st w st' /\ released r a a') /\
  (~ finished a q -> exec c (KTest r st) s = Ok (VTest r 0 st, s)).
Proof.
  intros R Er Ns. pose proof (reach_inv _ _ R) as I. rewrite (finished_report _ _ _ I Er). split.
  - intros F. destruct (report q) as [w|] eqn:Rq; [|congruence]. pose proof (test_done _ _ _ _ I Er Rq) as E.
    destruct (run (tj := tj) (KTest r st) s a (fun o => exists st', wrote st w st' /\ o = VTest MPI_REQUEST_NULL 1 st') (freed_at a r) R) as (o & s' & D & st' & W & ->).
    + split; auto. right. eauto.
    + cbn [spec]. unfold smap, sbind. rewrite E. reflexivity.
    + exists w, st', s', (freed_at a r). split; auto. split; auto. split; auto. apply freed_released.
  - intros F. assert (Rq : report q = None) by (destruct (report q); [exfalso; apply F; discriminate|reflexivity]). eapply test_same; eauto.
Qed.
Theorem C18_null_lemma s st : st <> SBad -> exists st', exec c (KTest MPI_REQUEST_NULL st) s = Ok (VTest MPI_REQUEST_NULL 1 st', s) /\
  wrote st (Write (Some MPI_ANY_SOURCE) (Some MPI_ANY_TAG)) st'.
Proof.
  intros N. destruct st as [|x|]; [| |congruence]; cbn.
  - exists SIgnore. auto.
  - eexists. split; [reflexivity|]. eexists. split; [reflexivity|]. cbn. split; [congruence|]. split; [congruence|auto].
Qed.
Theorem C19_wait_lemma s a r q st : reach s a -> req_at a r = Some q -> st <> SBad ->
  (finished a q -> exists w st' s' a', does s a (KWait r st) (VWait MPI_REQUEST_NULL st') s' a' /\ report q = Some w /\ wrote st w st' /\ released r a a' /\
     exec c (KTest r st) s = Ok (VTest MPI_REQUEST_NULL 1 st', s')) /\
  (~ finished a q -> exec c (KWait r st) s = Abort "MPI_Wait: request not complete, deadlock").
Proof.
  intros R Er Ns. pose proof (reach_inv _ _ R) as I. split.
  - intros F. destruct (C18_test_lemma s a r q st R Er Ns) as [H _]. destruct (H F) as (w & st' & s' & a' & D & Rq & W & Re).
    exists w, st', s', a'. assert (E := D). destruct E as (Lg & E & R' & Q & Es & Qo). split; [|auto].
    split; [exact Lg|]. split; [|split; [auto|]].
    + cbn [exec] in *. unfold mmap, mbind, ret in *. cbv beta in *. unfold MPI_Wait, mbind, ret. cbv beta. destruct (MPI_Test r st s) as [[[[r1 f1] st1] s1]| | | |] eqn:Et; cbn in E; try discriminate.
      injection E as -> -> -> ->. reflexivity.
    + cbn [spec] in Es |- *. unfold smap, sbind in Es |- *. rewrite (test_done _ _ _ _ I Er Rq) in Es. rewrite (wait_done _ _ _ _ _ I Er Rq).
      apply Ret_state in Es. subst a'. eexists. split; [reflexivity|]. exists st'. auto.
  - rewrite (finished_report _ _ _ I Er). intros F. assert (Rq : report q = None) by (destruct (report q); [exfalso; apply F; discriminate|reflexivity]).
    apply (run_abort (tj := tj) _ _ a); auto; [split; auto; right; eauto|]. apply smap_abort. eapply wait_pending; eauto.
Qed.
Theorem C19_null_lemma s st : st <> SBad -> exists st', exec c (KWait MPI_REQUEST_NULL st) s = Ok (VWait MPI_REQUEST_NULL st', s) /\
  wrote st (Write (Some MPI_ANY_SOURCE) (Some MPI_ANY_TAG)) st'.
Proof.
  intros N. destruct st as [|x|]; [| |congruence]; cbn.
  - exists SIgnore. auto.
  - eexists. split; [reflexivity|]. eexists. split; [reflexivity|]. cbn. split; [congruence|]. split; [congruence|auto].
Qed.

(** *** C17 *)
Theorem C17_test_lemma s a r q id uid want sid uid' tag st : reach s a -> req_at a r = Some q -> op_id q = Some id ->
  In (EPost id Rcv uid want) (a_log a) -> In (EMatch sid id) (a_log a) -> In (EPost sid Snd uid' tag) (a_log a) -> st <> SBad ->
  finished a q /\ report q = Some (Write (Some 0) (Some tag)).
Proof.
  intros R Er Oq P1 M P2 Ns. pose proof (reach_inv _ _ R) as I. pose proof (reach_log _ _ R) as LO. pose proof (hy_req _ (iv_hist _ I) _ _ Er) as K.
  assert (F : finished a q). { unfold finished. rewrite Oq. exists sid, id. auto. }
  split; [exact F|]. destruct q; cbn in *; try discriminate; injection Oq as ->.
  - destruct K as [_ K]. exfalso. apply K. exists sid, id. auto.
  - destruct K as (u & t & rid & P & _). destruct (post_once _ _ _ _ _ _ _ _ _ LO P P1) as [X _]. discriminate.
  - destruct K as (u & w & sid' & P3 & M' & P4). assert (sid' = sid); [|subst sid'].
    { apply in_split in M. destruct M as (l1 & l2 & El). destruct (C13_once_lemma _ _ _ _ _ _ R El) as (_ & _ & N2 & _ & N4).
      rewrite El in M'. apply in_app_iff in M'. cbn [In] in M'. destruct M' as [M'|[M'|M']].
      - exfalso. apply N2. exists sid', id. auto.
      - congruence.
      - exfalso. apply N4. exists sid', id. auto. }
    destruct (post_once _ _ _ _ _ _ _ _ _ LO P2 P4) as (_ & _ & ->). reflexivity.
Qed.
Theorem C17_persists_lemma s a k o s' a' r q : reach s a -> does s a k o s' a' -> k <> KFinalize -> ~ In r (reqs_of k) -> req_at a r = Some q ->
  exists q', req_at a' r = Some q' /\ op_id q' = op_id q /\ (finished a q -> q' = q) /\ (exists l, a_log a' = a_log a ++ l).
Proof.
  intros R D N Nr E. pose proof (does_kept _ _ _ _ _ _ R D N) as K. destruct (kp_req _ _ _ _ _ K _ _ Nr E) as (q' & E' & O & C). exists q'. split; auto. split; auto.
  split; [|apply (kp_log _ _ _ _ _ K)]. rewrite (finished_report _ _ _ (reach_inv _ _ R) E). exact C.
Qed.

(** *** Blocking calls *)
Lemma paired_absorbed sd a cm k id h g bf p e m a1 : inv a -> comm_at a cm = Some k -> earliest sd g k bf p e ->
  paired sd a cm k id h g bf p e m a1 -> absorbed sd a cm k id g bf p e m (freed_at a1 h).
Proof.
  intros I Ek Ea [[B N] Q1 Q2 C1 L1 M1 Oth]. pose proof (inv_q a (other sd) cm k p I Ek (earliest_in _ _ _ _ _ _ Ea)) as Pq.
  assert (Nhc : h <> cm) by (intros ->; unfold comm_at in Ek; rewrite N in Ek; discriminate).
  assert (Nhp : h <> p_req p) by (intros X; unfold req_at in Pq; rewrite <- X, N in Pq; discriminate).
  constructor; cbn; auto.
  - unfold req_at in *. cbn. rewrite upd_other by auto. exact Q2.
  - unfold comm_at in *. cbn. rewrite upd_other by auto. exact C1.
  - intros x X1 X2. unfold upd. destruct (Z.eqb_spec x h) as [->|Nx]; [symmetry; exact N|apply Oth; auto].
Qed.
Lemma send_match a b n t g cm k bf p e m : inv a -> has_handle a -> comm_at a cm = Some k -> earliest Snd g k bf p e ->
  xfer_res c a b n t (p_buf p) (p_count p) (p_type p) = Ok m ->
  exists a', s_send c b n t 0 g cm a = Ret tt a' /\ absorbed Snd a cm k (a_clock a) g bf p e m a'.
Proof.
  intros I H Ek Ea Ex. destruct (isend_paired _ b n t g cm k bf p e m I H Ek Ea Ex) as (h & a1 & E & P & _).
  pose proof (isend_keeps _ _ _ _ _ _ _ _ _ _ I E) as I1. exists (freed_at a1 h). split; [|eapply paired_absorbed; eauto].
  unfold s_send, sbind. rewrite E. rewrite (wait_done _ _ _ _ _ I1 (pr_req _ _ _ _ _ _ _ _ _ _ _ _ P) eq_refl). reflexivity.
Qed.
Lemma send_none a b n t g cm k : inv a -> has_handle a -> comm_at a cm = Some k -> none_goes Snd g k -> s_send c b n t 0 g cm a = SAbort wait_msg.
Proof.
  intros I H Ek Ea. destruct (isend_queued (c:=c) _ b n t g cm k I H Ek Ea) as (h & a1 & E & P).
  pose proof (isend_keeps _ _ _ _ _ _ _ _ _ _ I E) as I1. unfold s_send, sbind. rewrite E. rewrite (wait_pending _ _ _ _ I1 (qd_req _ _ _ _ _ _ P) eq_refl). reflexivity.
Qed.
Lemma isend_exit a b n t g cm k bf p e code msg : inv a -> has_handle a -> comm_at a cm = Some k -> earliest Snd g k bf p e ->
  xfer_res c a b n t (p_buf p) (p_count p) (p_type p) = Exit code msg -> s_isend c b n t 0 g cm a = SExit code msg.
Proof.
  intros I H Ek (E1 & E2 & E3) Ex. destruct (handle_next _ I H) as (h & fr & top & En & N & B).
  unfold s_isend. change (negb (rank_ok 0)) with false. change (0 =? MPI_PROC_NULL) with false. cbn [orb negb]. rewrite Ek.
  cbn [line other goes_with] in *. rewrite E1, (first_such_split (fun q => accepts (p_tag q) g) _ _ _ E2 E3). unfold sbind, s_alloc, s_xfer. rewrite En. rewrite xfer_frame by exact N. rewrite Ex. reflexivity.
Qed.
Lemma irecv_exit a b n t so g cm k bf p e code msg : inv a -> has_handle a -> so = 0 \/ so = MPI_ANY_SOURCE -> comm_at a cm = Some k -> earliest Rcv g k bf p e ->
  xfer_res c a (p_buf p) n t b n t = Exit code msg -> s_irecv c b n t so g cm a = SExit code msg.
Proof.
  intros I H So Ek (E1 & E2 & E3) Ex. destruct (handle_next _ I H) as (h & fr & top & En & N & B).
  unfold s_irecv. replace (negb (source_ok so)) with false by (destruct So as [-> | ->]; reflexivity).
  replace (so =? MPI_PROC_NULL) with false by (destruct So as [-> | ->]; reflexivity). rewrite Ek.
  cbn [line other goes_with] in *. rewrite E1, (first_such_split (fun q => accepts g (p_tag q)) _ _ _ E2 E3). unfold sbind, s_alloc, s_xfer. rewrite En. rewrite xfer_frame by exact N. rewrite Ex. reflexivity.
Qed.

Theorem C20_lemma K s a b n t g cm k : is_send K -> reach s a -> has_handle a -> room a -> comm_at a cm = Some k ->
  (forall bf p e, earliest Snd g k bf p e ->
     (forall m, xfer_res c a b n t (p_buf p) (p_count p) (p_type p) = Ok m ->
        exists s' a', does s a (K b n t 0 g cm) VUnit s' a' /\ absorbed Snd a cm k (a_clock a) g bf p e m a') /\
     (forall code msg, xfer_res c a b n t (p_buf p) (p_count p) (p_type p) = Exit code msg -> exec c (K b n t 0 g cm) s = Exit code msg)) /\
  (none_goes Snd g k -> exec c (K b n t 0 g cm) s = Abort "MPI_Wait: request not complete, deadlock").
Proof.
  intros IK R H Rm Ek. destruct (send_spec K b n t 0 g cm IK) as [L S]. pose proof (reach_inv _ _ R) as I. split; [intros bf p e Ea; split|].
  - intros m Ex. destruct (send_match a b n t g cm k bf p e m I H Ek Ea Ex) as (a' & E & Ab).
    destruct (does_intro (K b n t 0 g cm) s a (unit_out tt) a' VUnit R) as (s' & D); eauto.
    + rewrite L. eapply legal_isend_paired; eauto. rewrite Ex. exact Logic.I.
    + rewrite S. apply smap_run. exact E.
  - intros code msg Ex. apply (run_exit (tj := tj) _ _ a); auto.
    + rewrite L. eapply legal_isend_paired; eauto. rewrite Ex. exact Logic.I.
    + rewrite S. apply smap_exit. unfold s_send, sbind. rewrite (isend_exit _ _ _ _ _ _ _ _ _ _ _ _ I H Ek Ea Ex). reflexivity.
  - intros Nf. apply (run_abort (tj := tj) _ _ a); auto.
    + rewrite L. eapply legal_isend_queued; eauto.
    + rewrite S. apply smap_abort. eapply send_none; eauto.
Qed.

Theorem C21_lemma s a b n t so g cm k st : reach s a -> has_handle a -> room a -> comm_at a cm = Some k -> so = 0 \/ so = MPI_ANY_SOURCE -> st <> SBad ->
  (forall bf p e, earliest Rcv g k bf p e ->
     (forall m, xfer_res c a (p_buf p) n t b n t = Ok m ->
        exists s' a' st', does s a (KRecv b n t so g cm st) (VStatus (with_count st' n)) s' a' /\ wrote st (Write (Some 0) (Some (p_tag p))) st' /\
          absorbed Rcv a cm k (a_clock a) g bf p e m a') /\
     (forall code msg, xfer_res c a (p_buf p) n t b n t = Exit code msg -> exec c (KRecv b n t so g cm st) s = Exit code msg)) /\
  (none_goes Rcv g k -> exec c (KRecv b n t so g cm st) s = Abort "MPI_Wait: request not complete, deadlock").
Proof.
  intros R H Rm Ek So Ns. pose proof (reach_inv _ _ R) as I. split; [intros bf p e Ea; split|].
  - intros m Ex. destruct (irecv_paired _ b n t so g cm k bf p e m I H So Ek Ea Ex) as (h & a1 & E & P & _).
    pose proof (irecv_keeps _ _ _ _ _ _ _ _ _ _ I E) as I1.
    destruct (run (tj := tj) (KRecv b n t so g cm st) s a (fun o => exists st', wrote st (Write (Some 0) (Some (p_tag p))) st' /\ o = VStatus (with_count st' n)) (freed_at a1 h) R) as (o & s' & D & st' & W & ->).
    + split; auto. eapply legal_irecv_paired; eauto. rewrite Ex. exact Logic.I.
    + cbn [spec]. unfold smap, sbind, s_recv, sbind. rewrite E. rewrite (wait_done _ _ _ _ _ I1 (pr_req _ _ _ _ _ _ _ _ _ _ _ _ P) eq_refl). reflexivity.
    + exists s', (freed_at a1 h), st'. split; auto. split; auto. eapply paired_absorbed; eauto.
  - intros code msg Ex. apply (run_exit (tj := tj) _ _ a); auto.
    + split; auto. eapply legal_irecv_paired; eauto. rewrite Ex. exact Logic.I.
    + apply smap_exit. unfold s_recv, sbind. rewrite (irecv_exit _ _ _ _ _ _ _ _ _ _ _ _ _ I H So Ek Ea Ex). reflexivity.
  - intros Nf. destruct (irecv_queued (c:=c) _ b n t so g cm k I H So Ek Nf) as (h & a1 & E & P & _). pose proof (irecv_keeps _ _ _ _ _ _ _ _ _ _ I E) as I1.
    apply (run_abort (tj := tj) _ _ a); auto.
    + split; auto. eapply legal_irecv_queued; eauto.
    + apply smap_abort. unfold s_recv, sbind. rewrite E. rewrite (wait_pending _ _ _ _ I1 (qd_req _ _ _ _ _ _ P) eq_refl). reflexivity.
Qed.

(** *** C22 *)
Definition idle (k : acomm) : Prop := k_sends k = [] /\ k_recvs k = [].
Theorem C22_lemma s a sb sn sty sg rb rn rt so rg cm k st : reach s a -> has_two a -> a_items a + 1 < INT_MAX -> comm_at a cm = Some k -> idle k ->
  so = 0 \/ so = MPI_ANY_SOURCE -> st <> SBad ->
  (accepts rg sg = true ->
     (forall m, xfer_res c a sb sn sty rb rn rt = Ok m ->
        exists s' a' st', does s a (KSendrecv sb sn sty 0 sg rb rn rt so rg cm st) (VStatus st') s' a' /\
          wrote st (Write (Some 0) (Some sg)) st' /\ a_mem a' = m /\ (forall x, a_obj a' x = a_obj a x) /\
          a_log a' = a_log a ++ [EPost (a_clock a) Rcv (k_uid k) rg; EPost (a_clock a + 1) Snd (k_uid k) sg; EMatch (a_clock a + 1) (a_clock a)]) /\
     (forall code msg, xfer_res c a sb sn sty rb rn rt = Exit code msg -> exec c (KSendrecv sb sn sty 0 sg rb rn rt so rg cm st) s = Exit code msg)) /\
  (accepts rg sg = false -> exec c (KSendrecv sb sn sty 0 sg rb rn rt so rg cm st) s = Abort "MPI_Wait: request not complete, deadlock").
Proof.
  intros R (h0 & fr0 & top0 & En0 & En1) Rm Ek (I1 & I2) So Ns. pose proof (reach_inv _ _ R) as I.
  assert (H : has_handle a) by (unfold has_handle; congruence). assert (Nf : none_goes Rcv rg k) by (intros q Hq; cbn in Hq; rewrite I1 in Hq; contradiction).
  destruct (irecv_queued (c:=c) _ rb rn rt so rg cm k I H So Ek Nf) as (h & a1 & E & P & En & Ec & Ei).
  assert (LI : legal_irecv c rb rn rt so rg cm a) by (eapply legal_irecv_queued; eauto; unfold room; lia).
  pose proof (irecv_keeps _ _ _ _ _ _ _ _ _ _ I E) as Ia1.
  assert (H1 : has_handle a1) by (unfold has_handle; congruence).
  set (p := mkPend (a_clock a) h rb rn rt rg) in *. pose proof (qd_comm _ _ _ _ _ _ P) as Ek1. cbn [set_line line p_req p] in Ek1. rewrite I1, I2 in Ek1. cbn [app] in Ek1.
  set (k1 := mkAcomm (k_uid k) [] [p]) in *.
  assert (Rm1 : room a1) by (unfold room; lia).
  pose proof (qd_fresh _ _ _ _ _ _ P) as [Hh1 Hh2]. cbn in Hh1, Hh2.
  assert (XF : xfer_res c a1 sb sn sty rb rn rt = xfer_res c a sb sn sty rb rn rt).
  { unfold xfer_res. rewrite (qd_mem _ _ _ _ _ _ P). assert (T : forall t, type_at c a1 t = type_at c a t).
    { intros t. unfold type_at. destruct (t <? 0); [reflexivity|]. destruct (Z.eq_dec t h) as [->|Nh].
      - rewrite Hh2. pose proof (qd_req _ _ _ _ _ _ P) as Q. cbn in Q. apply req_obj in Q. rewrite Q. reflexivity.
      - destruct (Z.eq_dec t cm) as [->|Nc]; [|rewrite (qd_rest _ _ _ _ _ _ P) by auto; reflexivity].
        apply comm_obj in Ek, Ek1. rewrite Ek, Ek1. reflexivity. }
    rewrite !T. reflexivity. }
  split; [intros Ac; assert (Ea : earliest Snd sg k1 [] p []) by (split; [reflexivity|split; [exact Ac|intros q []]]); split|].
  - intros m Ex. rewrite <- XF in Ex. destruct (send_match a1 sb sn sty sg cm k1 [] p [] m Ia1 H1 Ek1 Ea Ex) as (a2 & E2 & Ab).
    assert (I2' : inv a2).
    { unfold s_send, sbind in E2. destruct (s_isend c sb sn sty 0 sg cm a1) as [hh b| |] eqn:X; try discriminate. destruct (s_wait _ hh b) as [[? ?] b2| |] eqn:Y; try discriminate.
      injection E2 as <-. eapply wait_keeps; [|exact Y]. eapply isend_keeps; [|exact X]. exact Ia1. }
    pose proof (ab_partner _ _ _ _ _ _ _ _ _ _ _ Ab) as Pa. cbn [p_req p done_req other p_id msg_tag] in Pa.
    destruct (run (tj := tj) (KSendrecv sb sn sty 0 sg rb rn rt so rg cm st) s a (fun o => exists st', wrote st (Write (Some 0) (Some sg)) st' /\ o = VStatus st') (freed_at a2 h) R) as (o & s' & D & st' & W & ->).
    + split; auto. split; auto. rewrite E. eapply legal_isend_paired; eauto. cbn [p_buf p_count p_type p]. rewrite Ex. exact Logic.I.
    + cbn [spec]. unfold smap, sbind at 1. unfold s_sendrecv, sbind. rewrite E, E2. rewrite (wait_done _ _ _ _ _ I2' Pa eq_refl). reflexivity.
    + exists s', (freed_at a2 h), st'. split; auto. split; auto. split; [exact (ab_memory _ _ _ _ _ _ _ _ _ _ _ Ab)|].
      assert (Nhc : h <> cm) by (intros ->; unfold comm_at in Ek; rewrite Hh2 in Ek; discriminate).
      split.
      * intros x. cbn. unfold upd. destruct (Z.eqb_spec x h) as [->|Nx]; [auto|]. destruct (Z.eq_dec x cm) as [->|Nc].
        -- pose proof (ab_comm _ _ _ _ _ _ _ _ _ _ _ Ab) as Ck. apply comm_obj in Ck. rewrite Ck. apply comm_obj in Ek. rewrite Ek. cbn. destruct k; cbn in *. subst. reflexivity.
        -- rewrite (ab_rest _ _ _ _ _ _ _ _ _ _ _ Ab) by auto. apply (qd_rest _ _ _ _ _ _ P); auto.
      * cbn. rewrite (ab_log _ _ _ _ _ _ _ _ _ _ _ Ab), (qd_log _ _ _ _ _ _ P), <- app_assoc, Ec. reflexivity.
  - intros code msg Ex. rewrite <- XF in Ex. apply (run_exit (tj := tj) _ _ a); auto.
    + split; auto. split; auto. rewrite E. eapply legal_isend_paired; eauto. cbn [p_buf p_count p_type p]. rewrite Ex. exact Logic.I.
    + apply smap_exit. unfold s_sendrecv, s_send, sbind. rewrite E. rewrite (isend_exit _ _ _ _ _ _ _ _ _ _ _ _ Ia1 H1 Ek1 Ea Ex). reflexivity.
  - intros Ac. assert (Nf1 : none_goes Snd sg k1) by (intros q [<-|[]]; exact Ac). apply (run_abort (tj := tj) _ _ a); auto.
    + split; auto. split; auto. rewrite E. eapply legal_isend_queued; eauto.
    + apply smap_abort. unfold s_sendrecv, sbind. rewrite E. rewrite (send_none _ _ _ _ _ _ _ Ia1 H1 Ek1 Nf1). reflexivity.
Qed.

(** *** C23 *)
Theorem C23_lemma s a b n t g cm k : reach s a -> has_handle a -> room a -> comm_at a cm = Some k ->
  (forall bf p e m, earliest Snd g k bf p e -> xfer_res c a b n t (p_buf p) (p_count p) (p_type p) = Ok m ->
     exists h s' a', does s a (KIrsend b n t 0 g cm) (VInt h) s' a' /\ paired Snd a cm k (a_clock a) h g bf p e m a' /\ complete a' h = true) /\
  (none_goes Snd g k -> exec c (KIrsend b n t 0 g cm) s = Abort "MPI_Irsend: no matching receive found").
Proof.
  intros R H Rm Ek. pose proof (reach_inv _ _ R) as I. split.
  - intros bf p e m Ea Ex. destruct (isend_paired _ b n t g cm k bf p e m I H Ek Ea Ex) as (h & a1 & E & P & _).
    assert (Cm : complete a1 h = true) by (unfold complete; rewrite (pr_req _ _ _ _ _ _ _ _ _ _ _ _ P); cbn; apply orb_true_r).
    destruct (does_intro (KIrsend b n t 0 g cm) s a (is VInt h) a1 (VInt h) R) as (s' & D).
    + eapply legal_isend_paired; eauto. rewrite Ex. exact Logic.I.
    + apply smap_run. unfold s_irsend, sbind. rewrite E, Cm. reflexivity.
    + auto.
    + exists h, s', a1. auto.
  - intros Nf. destruct (isend_queued (c:=c) _ b n t g cm k I H Ek Nf) as (h & a1 & E & P). pose proof (isend_keeps _ _ _ _ _ _ _ _ _ _ I E) as I1.
    apply (run_abort (tj := tj) _ _ a); auto; [eapply legal_isend_queued; eauto|]. apply smap_abort. unfold s_irsend, sbind. rewrite E. unfold complete.
    pose proof (qd_req _ _ _ _ _ _ P) as Q. cbn [p_req] in Q. rewrite Q, (req_pos _ _ _ I1 Q). reflexivity.
Qed.
Theorem C23_null_lemma s a b n t g cm : reach s a -> has_handle a -> known a cm ->
  exists h s' a', does s a (KIrsend b n t MPI_PROC_NULL g cm) (VInt h) s' a' /\ added h (AReq QNullSend) a a' /\ complete a' h = true.
Proof.
  intros R H K. destruct (isend_null _ b n t g cm (reach_inv _ _ R) H) as (h & a' & E & A).
  assert (Cm : complete a' h = true) by (unfold complete; rewrite (added_req _ _ _ _ A); cbn; apply orb_true_r).
  destruct (does_intro (KIrsend b n t MPI_PROC_NULL g cm) s a (is VInt h) a' (VInt h) R) as (s' & D); [apply legal_isend_null; auto| |auto|].
  - apply smap_run. unfold s_irsend, sbind. rewrite E, Cm. reflexivity.
  - exists h, s', a'. auto.
Qed.

(** *** C24 *)
Theorem C24_lemma s a so g cm k st : reach s a -> comm_at a cm = Some k -> so = 0 \/ so = MPI_ANY_SOURCE -> st <> SBad ->
  (forall bf p e, earliest Rcv g k bf p e ->
     exists s' st', does s a (KIprobe so g cm st) (VProbe 1 st') s' a /\ does s a (KProbe so g cm st) (VStatus st') s' a /\
       wrote st (Write (Some 0) (Some (p_tag p))) st' /\
       forall b n t m, has_handle a -> room a -> xfer_res c a (p_buf p) n t b n t = Ok m ->
         exists h s2 a2, does s' a (KIrecv b n t so g cm) (VInt h) s2 a2 /\ paired Rcv a cm k (a_clock a) h g bf p e m a2) /\
  (none_goes Rcv g k ->
     (exists s', does s a (KIprobe so g cm st) (VProbe 0 st) s' a) /\ exec c (KProbe so g cm st) s = Abort "MPI_Probe: no existing match, deadlock").
Proof.
  intros R Ek So Ns. pose proof (reach_inv _ _ R) as I.
  assert (Sg : negb ((so =? 0) || (so =? MPI_ANY_SOURCE)) = false) by (destruct So as [-> | ->]; reflexivity).
  assert (L : known a cm /\ st <> SBad /\ (so = 0 \/ so = MPI_ANY_SOURCE -> exists k, comm_at a cm = Some k)).
  { split; [eapply known_comm; eauto|]. split; eauto. }
  split.
  - intros bf p e (E1 & E2 & E3). cbn [line other goes_with] in *. assert (E : s_iprobe so g cm a = Ret (1, Write (Some 0) (Some (p_tag p))) a).
    { unfold s_iprobe. rewrite Sg, Ek, E1, (first_such_split (fun q => accepts g (p_tag q)) _ _ _ E2 E3). reflexivity. }
    destruct (run (tj := tj) (KIprobe so g cm st) s a (fun o => exists st', wrote st (Write (Some 0) (Some (p_tag p))) st' /\ o = VProbe 1 st') a R) as (o & s' & D & st' & W & ->).
    { exact L. } { cbn [spec]. unfold smap, sbind. rewrite E. reflexivity. }
    exists s', st'. split; auto. split; [|split; auto].
    + destruct D as (_ & Ee & R' & _). split; [exact L|]. split; [|split; [auto|]].
      * cbn [exec] in *. unfold mmap, mbind, ret in *. cbv beta in *. unfold MPI_Probe, mbind, ret. cbv beta. destruct (MPI_Iprobe so g cm st s) as [[[f1 st1] s1]| | | |] eqn:Et; cbn in Ee; try discriminate.
        injection Ee as -> -> ->. reflexivity.
      * cbn [spec]. unfold smap, s_probe, sbind. rewrite E. eexists. split; [reflexivity|]. exists st'. auto.
    + intros b n t m H Rm Ex. destruct D as (_ & _ & R' & _). destruct (C09_lemma s' a b n t so g cm k R' H Rm Ek So) as [X _]. apply X; auto.
      split; [exact E1|split; auto].
  - intros Nf. unfold none_goes in Nf. cbn [line other goes_with] in Nf. assert (E : s_iprobe so g cm a = Ret (0, NoWrite) a).
    { unfold s_iprobe. rewrite Sg, Ek, (first_such_no _ _ Nf). reflexivity. }
    split.
    + destruct (run (tj := tj) (KIprobe so g cm st) s a (fun o => exists st', wrote st NoWrite st' /\ o = VProbe 0 st') a R) as (o & s' & D & st' & W & ->).
      { exact L. } { cbn [spec]. unfold smap, sbind. rewrite E. reflexivity. }
      cbn in W. subst st'. eauto.
    + apply (run_abort (tj := tj) _ _ a); auto. apply smap_abort. unfold s_probe, sbind. rewrite E. reflexivity.
Qed.
End Facts.
