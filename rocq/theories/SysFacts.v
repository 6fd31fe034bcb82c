(** Consequences of the refinement and the invariant: what single calls do in a reachable state. *)
From Verif Require Import Base HandleSpec HandleExact TypeModel CopyModel SysModel CollModel SysCalls SysSpec SysLog SysReach SysInv SysAbs SysSim SysSim3 SysHist.

Section Facts.
Context {c : cfg} {tj : Z -> tjunk}.
Notation reach := (SysReach.reach c tj).

Lemma reach_abs s a : reach s a -> Abs tj s a.
Proof.
  induction 1 as [|s a k o s' Q a' R IH L E1 E2]; [apply abs_start|].
  pose proof (exec_ok c tj k s a IH L) as H. unfold agree in H. rewrite E1, E2 in H. apply H.
Qed.
Lemma reach_inv s a : reach s a -> inv a.
Proof. induction 1; [apply inv_start|]. eapply spec_keeps; eauto. Qed.

(** A legal call does what the specification says. *)
Lemma run k s a Q a' : reach s a -> legal c tj k a -> spec c tj k a = Ret Q a' ->
  exists o s', does c tj s a k o s' a' /\ Q o.
Proof.
  intros R L E. pose proof (exec_ok c tj k s a (reach_abs _ _ R) L) as H. unfold agree in H. rewrite E in H.
  destruct (exec c k s) as [[o s']| | | |] eqn:Ee; try contradiction. destruct H as [H _]. exists o, s'. split; auto. split; auto. split; auto. split; eauto. eapply reach_call; eauto.
Qed.
Lemma run_abort k s a w : reach s a -> legal c tj k a -> spec c tj k a = SAbort w -> exec c k s = Abort w.
Proof.
  intros R L E. pose proof (exec_ok c tj k s a (reach_abs _ _ R) L) as H. unfold agree in H. rewrite E in H.
  destruct (exec c k s) as [[o s']| | | |] eqn:Ee; try contradiction. congruence.
Qed.
Lemma run_exit k s a n w : reach s a -> legal c tj k a -> spec c tj k a = SExit n w -> exec c k s = Exit n w.
Proof.
  intros R L E. pose proof (exec_ok c tj k s a (reach_abs _ _ R) L) as H. unfold agree in H. rewrite E in H.
  destruct (exec c k s) as [[o s']| | | |] eqn:Ee; try contradiction. destruct H. congruence.
Qed.
(** Conversely. *)
Lemma ran k s a o s' : reach s a -> legal c tj k a -> exec c k s = Ok (o, s') -> exists a', does c tj s a k o s' a'.
Proof.
  intros R L E. pose proof (exec_ok c tj k s a (reach_abs _ _ R) L) as H. unfold agree in H. rewrite E in H.
  destruct (spec c tj k a) as [Q a'| |] eqn:Es; try contradiction. exists a'. split; auto. split; auto. split; [eapply reach_call; eauto|]. exists Q. split; auto. apply H.
Qed.

(** *** Sends and receives *)
Lemma first_such_split {A} (f : A -> bool) : forall b p e, f p = true -> (forall x, In x b -> f x = false) -> first_such f (b ++ p :: e) = Some (b, p, e).
Proof.
  induction b as [|x b IH]; intros p e Hp Hb; cbn [app first_such]; [rewrite Hp; reflexivity|].
  rewrite (Hb x) by (simpl; auto). rewrite IH; auto. intros; apply Hb; simpl; auto.
Qed.
Lemma first_such_no {A} (f : A -> bool) : forall l, (forall x, In x l -> f x = false) -> first_such f l = None.
Proof. induction l as [|x l IH]; intros H; cbn [first_such]; [reflexivity|]. rewrite (H x) by (simpl; auto). rewrite IH; auto. intros; apply H; simpl; auto. Qed.

Lemma xfer_frame a h fr top q x0 n0 t0 x1 n1 t1 : a_obj a h = None ->
  xfer_res c (set_obj (with_handles a fr top) h (Some (AReq q))) x0 n0 t0 x1 n1 t1 = xfer_res c a x0 n0 t0 x1 n1 t1.
Proof.
  intros N. assert (T : forall t, type_at c (set_obj (with_handles a fr top) h (Some (AReq q))) t = type_at c a t).
  { intros t. unfold type_at. destruct (t <? 0); [reflexivity|]. cbn. unfold upd. destruct (Z.eqb_spec t h) as [->|]; [rewrite N|]; reflexivity. }
  unfold xfer_res. rewrite !T. reflexivity.
Qed.

Lemma handle_next a : inv a -> has_handle a -> exists h fr top, next_handle (a_freed a) (a_top a) = Some (h, fr, top) /\ a_obj a h = None /\ 1 <= h.
Proof.
  intros I H. unfold has_handle in H. destruct (next_handle (a_freed a) (a_top a)) as [[[h fr] top]|] eqn:E; [|congruence].
  destruct (hw_next _ _ _ _ None (iv_hw _ I) E) as (N & B & _). exists h, fr, top. auto.
Qed.

Lemma isend_paired a b n t g cm k bf p e m : inv a -> has_handle a -> comm_at a cm = Some k -> earliest Snd g k bf p e ->
  xfer_res c a b n t (p_buf p) (p_count p) (p_type p) = Ok m ->
  exists h a', s_isend c b n t 0 g cm a = Ret h a' /\ paired Snd a cm k (a_clock a) h g bf p e m a' /\
    next_handle (a_freed a) (a_top a) = Some (h, a_freed a', a_top a').
Proof.
  intros I H Ek (E1 & E2 & E3) Ex. destruct (handle_next _ I H) as (h & fr & top & En & N & B).
  unfold s_isend. cbn [rank_ok]. change (negb (rank_ok 0)) with false. change (0 =? MPI_PROC_NULL) with false. cbn [orb negb]. rewrite Ek.
  cbn [line other goes_with] in *. rewrite E1, (first_such_split (fun q => accepts (p_tag q) g) _ _ _ E2 E3). unfold sbind, s_alloc, s_xfer. rewrite En. rewrite xfer_frame by exact N. rewrite Ex.
  pose proof (inv_q a Rcv cm k p I Ek ltac:(cbn; rewrite E1; apply in_or_app; simpl; auto)) as Pq.
  assert (Nhc : h <> cm) by (intros ->; unfold comm_at in Ek; rewrite N in Ek; discriminate).
  assert (Nhp : h <> p_req p) by (intros X; unfold req_at in Pq; rewrite <- X, N in Pq; discriminate).
  assert (Npc : p_req p <> cm) by (intros X; apply req_comm in Pq; congruence).
  eexists h, _. split; [reflexivity|]. split; [constructor; cbn; auto|reflexivity].
  - unfold req_at. cbn. rewrite !upd_other by auto. rewrite upd_same. reflexivity.
  - unfold req_at. cbn. rewrite upd_other by auto. rewrite upd_same. reflexivity.
  - unfold comm_at. cbn. rewrite upd_same. reflexivity.
  - intros x X1 X2 X3. rewrite !upd_other by auto. reflexivity.
Qed.

Lemma isend_queued a b n t g cm k : inv a -> has_handle a -> comm_at a cm = Some k -> none_goes Snd g k ->
  exists h a', s_isend c b n t 0 g cm a = Ret h a' /\ queued Snd a cm k (mkPend (a_clock a) h b n t g) a'.
Proof.
  intros I H Ek E1. destruct (handle_next _ I H) as (h & fr & top & En & N & B).
  unfold s_isend. change (negb (rank_ok 0)) with false. change (0 =? MPI_PROC_NULL) with false. cbn [orb negb]. rewrite Ek.
  unfold none_goes in E1. cbn [line other goes_with] in *. rewrite (first_such_no _ _ E1). unfold sbind, s_alloc. rewrite En.
  assert (Nhc : h <> cm) by (intros ->; unfold comm_at in Ek; rewrite N in Ek; discriminate).
  eexists h, _. split; [reflexivity|]. constructor; cbn; auto.
  - unfold req_at. cbn. rewrite upd_other by auto. rewrite upd_same. reflexivity.
  - unfold comm_at. cbn. rewrite upd_same. reflexivity.
  - intros x X1 X2. rewrite !upd_other by auto. reflexivity.
Qed.

Lemma irecv_paired a b n t so g cm k bf p e m : inv a -> has_handle a -> so = 0 \/ so = MPI_ANY_SOURCE -> comm_at a cm = Some k -> earliest Rcv g k bf p e ->
  xfer_res c a (p_buf p) n t b n t = Ok m ->
  exists h a', s_irecv c b n t so g cm a = Ret h a' /\ paired Rcv a cm k (a_clock a) h g bf p e m a' /\
    next_handle (a_freed a) (a_top a) = Some (h, a_freed a', a_top a').
Proof.
  intros I H So Ek (E1 & E2 & E3) Ex. destruct (handle_next _ I H) as (h & fr & top & En & N & B).
  unfold s_irecv. replace (negb (source_ok so)) with false by (destruct So as [-> | ->]; reflexivity).
  replace (so =? MPI_PROC_NULL) with false by (destruct So as [-> | ->]; reflexivity). rewrite Ek.
  cbn [line other goes_with] in *. rewrite E1, (first_such_split (fun q => accepts g (p_tag q)) _ _ _ E2 E3). unfold sbind, s_alloc, s_xfer. rewrite En. rewrite xfer_frame by exact N. rewrite Ex.
  pose proof (inv_q a Snd cm k p I Ek ltac:(cbn; rewrite E1; apply in_or_app; simpl; auto)) as Pq.
  assert (Nhc : h <> cm) by (intros ->; unfold comm_at in Ek; rewrite N in Ek; discriminate).
  assert (Nhp : h <> p_req p) by (intros X; unfold req_at in Pq; rewrite <- X, N in Pq; discriminate).
  assert (Npc : p_req p <> cm) by (intros X; apply req_comm in Pq; congruence).
  eexists h, _. split; [reflexivity|]. split; [constructor; cbn; auto|reflexivity].
  - unfold req_at. cbn. rewrite !upd_other by auto. rewrite upd_same. reflexivity.
  - unfold req_at. cbn. rewrite upd_other by auto. rewrite upd_same. reflexivity.
  - unfold comm_at. cbn. rewrite upd_same. reflexivity.
  - intros x X1 X2 X3. rewrite !upd_other by auto. reflexivity.
Qed.

Lemma irecv_queued a b n t so g cm k : inv a -> has_handle a -> so = 0 \/ so = MPI_ANY_SOURCE -> comm_at a cm = Some k -> none_goes Rcv g k ->
  exists h a', s_irecv c b n t so g cm a = Ret h a' /\ queued Rcv a cm k (mkPend (a_clock a) h b n t g) a' /\
    next_handle (a_freed a) (a_top a) = Some (h, a_freed a', a_top a') /\ a_clock a' = a_clock a + 1 /\ a_items a' = a_items a + 1.
Proof.
  intros I H So Ek E1. destruct (handle_next _ I H) as (h & fr & top & En & N & B).
  unfold s_irecv. replace (negb (source_ok so)) with false by (destruct So as [-> | ->]; reflexivity).
  replace (so =? MPI_PROC_NULL) with false by (destruct So as [-> | ->]; reflexivity). rewrite Ek.
  unfold none_goes in E1. cbn [line other goes_with] in *. rewrite (first_such_no _ _ E1). unfold sbind, s_alloc. rewrite En.
  assert (Nhc : h <> cm) by (intros ->; unfold comm_at in Ek; rewrite N in Ek; discriminate).
  eexists h, _. split; [reflexivity|]. split; [|split; [reflexivity|split; reflexivity]]. constructor; cbn; auto.
  - unfold req_at. cbn. rewrite upd_other by auto. rewrite upd_same. reflexivity.
  - unfold comm_at. cbn. rewrite upd_same. reflexivity.
  - intros x X1 X2. rewrite !upd_other by auto. reflexivity.
Qed.

(** Legality from simple conditions. *)
Lemma known_comm a cm k : comm_at a cm = Some k -> known a cm.
Proof. intros E. right. unfold live. rewrite (comm_obj _ _ _ E). discriminate. Qed.
Lemma earliest_unique sd g k bf p e bf' p' e' : earliest sd g k bf p e -> earliest sd g k bf' p' e' -> bf = bf' /\ p = p' /\ e = e'.
Proof.
  intros (E1 & E2 & E3) (F1 & F2 & F3). rewrite E1 in F1.
  pose proof (first_such_split (fun q => goes_with sd g (p_tag q)) _ _ e E2 E3) as X. rewrite F1, (first_such_split (fun q => goes_with sd g (p_tag q)) _ _ e' F2 F3) in X. injection X as -> -> ->. auto.
Qed.
Lemma legal_isend_paired a b n t g cm k bf p e : comm_at a cm = Some k -> room a -> earliest Snd g k bf p e ->
  defined (xfer_res c a b n t (p_buf p) (p_count p) (p_type p)) -> legal_isend c b n t 0 g cm a.
Proof.
  intros Ek Rm E D. split; [eapply known_comm; eauto|]. intros _. exists k. split; [auto|]. split; [auto|]. intros b' p' e' F.
  destruct E as (E1 & E2 & E3). cbn [line other goes_with] in *. rewrite E1, (first_such_split (fun q => accepts (p_tag q) g) _ _ _ E2 E3) in F. injection F as -> -> ->. exact D.
Qed.
Lemma legal_isend_queued a b n t g cm k : comm_at a cm = Some k -> room a -> none_goes Snd g k -> legal_isend c b n t 0 g cm a.
Proof.
  intros Ek Rm E. split; [eapply known_comm; eauto|]. intros _. exists k. split; [auto|]. split; [auto|]. intros b' p' e' F.
  unfold none_goes in E. cbn [line other goes_with] in E. rewrite (first_such_no _ _ E) in F. discriminate.
Qed.
Lemma legal_irecv_paired a b n t so g cm k bf p e : comm_at a cm = Some k -> room a -> earliest Rcv g k bf p e ->
  defined (xfer_res c a (p_buf p) n t b n t) -> legal_irecv c b n t so g cm a.
Proof.
  intros Ek Rm E D. split; [eapply known_comm; eauto|]. intros _. exists k. split; [auto|]. split; [auto|]. intros b' p' e' F.
  destruct E as (E1 & E2 & E3). cbn [line other goes_with] in *. rewrite E1, (first_such_split (fun q => accepts g (p_tag q)) _ _ _ E2 E3) in F. injection F as -> -> ->. exact D.
Qed.
Lemma legal_irecv_queued a b n t so g cm k : comm_at a cm = Some k -> room a -> none_goes Rcv g k -> legal_irecv c b n t so g cm a.
Proof.
  intros Ek Rm E. split; [eapply known_comm; eauto|]. intros _. exists k. split; [auto|]. split; [auto|]. intros b' p' e' F.
  unfold none_goes in E. cbn [line other goes_with] in E. rewrite (first_such_no _ _ E) in F. discriminate.
Qed.

Lemma smap_run {A} (f : A -> out -> Prop) (e : sp A) a x a' : e a = Ret x a' -> smap f e a = Ret (f x) a'.
Proof. intros E. unfold smap, sbind. rewrite E. reflexivity. Qed.
Lemma smap_abort {A} (f : A -> out -> Prop) (e : sp A) a w : e a = SAbort w -> smap f e a = SAbort w.
Proof. intros E. unfold smap, sbind. rewrite E. reflexivity. Qed.
Lemma smap_exit {A} (f : A -> out -> Prop) (e : sp A) a n w : e a = SExit n w -> smap f e a = SExit n w.
Proof. intros E. unfold smap, sbind. rewrite E. reflexivity. Qed.

Theorem C09_lemma s a b n t so g cm k :
  reach s a -> has_handle a -> room a -> comm_at a cm = Some k -> so = 0 \/ so = MPI_ANY_SOURCE ->
  (forall bf p e m, earliest Rcv g k bf p e -> xfer_res c a (p_buf p) n t b n t = Ok m ->
     exists h s' a', does c tj s a (KIrecv b n t so g cm) (VInt h) s' a' /\ paired Rcv a cm k (a_clock a) h g bf p e m a') /\
  (none_goes Rcv g k ->
     exists h s' a', does c tj s a (KIrecv b n t so g cm) (VInt h) s' a' /\ queued Rcv a cm k (mkPend (a_clock a) h b n t g) a').
Proof.
  intros R H Rm Ek So. split.
  - intros bf p e m E Ex. destruct (irecv_paired _ b n t so g cm k bf p e m (reach_inv _ _ R) H So Ek E Ex) as (h & a' & Es & P & _).
    destruct (run (KIrecv b n t so g cm) s a (is VInt h) a' R) as (o & s' & E1 & E2).
    + cbn [legal]. eapply legal_irecv_paired; eauto. rewrite Ex. exact Logic.I.
    + apply smap_run. exact Es.
    + unfold is in E2. subst o. exists h, s', a'. auto.
  - intros E. destruct (irecv_queued _ b n t so g cm k (reach_inv _ _ R) H So Ek E) as (h & a' & Es & P & _).
    destruct (run (KIrecv b n t so g cm) s a (is VInt h) a' R) as (o & s' & E1 & E2).
    + cbn [legal]. eapply legal_irecv_queued; eauto.
    + apply smap_run. exact Es.
    + unfold is in E2. subst o. exists h, s', a'. auto.
Qed.

Theorem C10_lemma s a b n t g cm k :
  reach s a -> has_handle a -> room a -> comm_at a cm = Some k ->
  (forall bf p e m, earliest Snd g k bf p e -> xfer_res c a b n t (p_buf p) (p_count p) (p_type p) = Ok m ->
     exists h s' a', does c tj s a (KIsend b n t 0 g cm) (VInt h) s' a' /\ paired Snd a cm k (a_clock a) h g bf p e m a') /\
  (none_goes Snd g k ->
     exists h s' a', does c tj s a (KIsend b n t 0 g cm) (VInt h) s' a' /\ queued Snd a cm k (mkPend (a_clock a) h b n t g) a').
Proof.
  intros R H Rm Ek. split.
  - intros bf p e m E Ex. destruct (isend_paired _ b n t g cm k bf p e m (reach_inv _ _ R) H Ek E Ex) as (h & a' & Es & P & _).
    destruct (run (KIsend b n t 0 g cm) s a (is VInt h) a' R) as (o & s' & E1 & E2).
    + cbn [legal]. eapply legal_isend_paired; eauto. rewrite Ex. exact Logic.I.
    + apply smap_run. exact Es.
    + unfold is in E2. subst o. exists h, s', a'. auto.
  - intros E. destruct (isend_queued _ b n t g cm k (reach_inv _ _ R) H Ek E) as (h & a' & Es & P).
    destruct (run (KIsend b n t 0 g cm) s a (is VInt h) a' R) as (o & s' & E1 & E2).
    + cbn [legal]. eapply legal_isend_queued; eauto.
    + apply smap_run. exact Es.
    + unfold is in E2. subst o. exists h, s', a'. auto.
Qed.

(** Every state is one of the two cases. *)
Lemma goes_cases sd g k : (exists bf p e, earliest sd g k bf p e) \/ none_goes sd g k.
Proof.
  destruct (first_such (fun q => goes_with sd g (p_tag q)) (line (other sd) k)) as [[[bf p] e]|] eqn:E.
  - left. exists bf, p, e. apply first_such_some in E. exact E.
  - right. exact (first_such_none _ _ E).
Qed.

Theorem C11_lemma s a h k p q : reach s a -> comm_at a h = Some k -> In p (k_sends k) -> In q (k_recvs k) -> accepts (p_tag q) (p_tag p) = false.
Proof. intros R. apply (iv_apart _ (reach_inv _ _ R)). Qed.

End Facts.
