(** The history of a reachable state, and what a call leaves alone. *)
From Verif Require Import Base HandleSpec HandleExact TypeModel CopyModel SysModel CollModel SysCalls SysSpec SysLog SysReach SysInv SysAbs SysSim SysSim3 SysHist SysFacts.
From Coq Require Import Sorted.

(** *** Order of matching *)
Lemma prefix_post l1 l2 n x sdx ux tx y sdy uy ty : log_ok (l1 ++ l2) n -> In (EPost x sdx ux tx) (l1 ++ l2) -> In (EPost y sdy uy ty) l1 -> x < y ->
  In (EPost x sdx ux tx) l1.
Proof.
  intros (E & _) Hx Hy L. apply in_app_iff in Hx. destruct Hx as [Hx|Hx]; auto. exfalso.
  rewrite post_ids_app in E. assert (S : StronglySorted Z.lt (post_ids l1 ++ post_ids l2)) by (rewrite E; apply sorted_seq).
  assert (H1 : In y (post_ids l1)) by (unfold post_ids; apply in_flat_map; eexists; split; [exact Hy|simpl; auto]).
  assert (H2 : In x (post_ids l2)) by (unfold post_ids; apply in_flat_map; eexists; split; [exact Hx|simpl; auto]).
  apply in_split in H2. destruct H2 as (b & e & Eb). rewrite Eb, app_assoc in S. destruct (sorted_split _ _ _ S) as [Hs _].
  specialize (Hs y ltac:(apply in_or_app; auto)). lia.
Qed.

Section Facts.
Context {c : cfg} {tj : Z -> tjunk}.
Notation reach := (SysReach.reach c tj).

Lemma reach_log s a : reach s a -> log_ok (a_log a) (a_clock a).
Proof. intros R. apply (hy_log _ (iv_hist _ (reach_inv _ _ R))). Qed.

Theorem C12_sends_lemma s a uid tag s1 s2 r2 l1 l2 :
  reach s a -> a_log a = l1 ++ EMatch s2 r2 :: l2 ->
  In (EPost s1 Snd uid tag) (a_log a) -> In (EPost s2 Snd uid tag) (a_log a) -> s1 < s2 -> exists r1, In (EMatch s1 r1) l1.
Proof.
  intros R E P1 P2 L. pose proof (reach_log _ _ R) as LO. destruct LO as (X1 & X2 & X3). destruct (X3 _ _ _ _ E) as (u & t & w & M1 & M2 & M3 & M4 & M5 & M6 & M7).
  assert (LO : log_ok (a_log a) (a_clock a)) by (split; auto).
  assert (M1' : In (EPost s2 Snd u t) (a_log a)) by (rewrite E; apply in_or_app; auto).
  destruct (post_once _ _ _ _ _ _ _ _ _ LO M1' P2) as (_ & -> & ->).
  rewrite E in P1. assert (LO' := LO). rewrite E in LO'. pose proof (prefix_post _ _ _ _ _ _ _ _ _ _ _ LO' P1 M1 L) as P1'.
  destruct (M6 _ _ P1' L M3) as (s' & r' & Hi & [-> | ->]); [eauto|]. exfalso.
  assert (Hi' : In (EMatch s' s1) (a_log a)) by (rewrite E; apply in_or_app; auto).
  destruct (match_posted _ _ _ _ LO Hi') as [_ (u2 & t2 & P3)]. rewrite <- E in P1. destruct (post_once _ _ _ _ _ _ _ _ _ LO P1 P3) as [? _]. discriminate.
Qed.

Theorem C12_recvs_lemma s a uid w1 w2 tag r1 r2 s2 l1 l2 :
  reach s a -> a_log a = l1 ++ EMatch s2 r2 :: l2 -> In (EPost s2 Snd uid tag) (a_log a) ->
  In (EPost r1 Rcv uid w1) (a_log a) -> In (EPost r2 Rcv uid w2) (a_log a) -> r1 < r2 -> accepts w1 tag = true -> exists s1, In (EMatch s1 r1) l1.
Proof.
  intros R E Ps P1 P2 L Ac. pose proof (reach_log _ _ R) as LO. destruct LO as (X1 & X2 & X3). destruct (X3 _ _ _ _ E) as (u & t & w & M1 & M2 & M3 & M4 & M5 & M6 & M7).
  assert (LO : log_ok (a_log a) (a_clock a)) by (split; auto).
  assert (M1' : In (EPost s2 Snd u t) (a_log a)) by (rewrite E; apply in_or_app; auto).
  destruct (post_once _ _ _ _ _ _ _ _ _ LO M1' Ps) as (_ & -> & ->).
  rewrite E in P1. assert (LO' := LO). rewrite E in LO'. pose proof (prefix_post _ _ _ _ _ _ _ _ _ _ _ LO' P1 M2 L) as P1'.
  destruct (M7 _ _ P1' L Ac) as (s' & r' & Hi & [-> | ->]); [|eauto]. exfalso.
  assert (Hi' : In (EMatch r1 r') (a_log a)) by (rewrite E; apply in_or_app; auto).
  destruct (match_posted _ _ _ _ LO Hi') as [(u2 & t2 & P3) _]. rewrite <- E in P1. destruct (post_once _ _ _ _ _ _ _ _ _ LO P1 P3) as [? _]. discriminate.
Qed.

(** *** At most once, never lost *)
Theorem C13_queues_lemma s a h k sd : reach s a -> comm_at a h = Some k ->
  map (fun p => (p_id p, p_tag p)) (line sd k) = waiting (a_log a) sd (k_uid k) /\
  (forall id tag, In (id, tag) (waiting (a_log a) sd (k_uid k)) <-> In (EPost id sd (k_uid k) tag) (a_log a) /\ ~ matched (a_log a) id) /\
  StronglySorted Z.lt (map p_id (line sd k)) /\
  (forall p, In p (line sd k) -> req_at a (p_req p) = Some (QPending sd (k_uid k) (p_id p))).
Proof.
  intros R E. pose proof (reach_inv _ _ R) as I. split; [eapply inv_wait; eauto|]. split; [intros; apply waiting_in|].
  split; [eapply queue_sorted; eauto|]. intros p. eapply inv_q; eauto.
Qed.
Theorem C13_once_lemma s a l1 sid rid l2 : reach s a -> a_log a = l1 ++ EMatch sid rid :: l2 ->
  (exists uid tag want, In (EPost sid Snd uid tag) l1 /\ In (EPost rid Rcv uid want) l1 /\ accepts want tag = true) /\
  ~ matched l1 sid /\ ~ matched l1 rid /\ ~ matched l2 sid /\ ~ matched l2 rid.
Proof.
  intros R E. pose proof (reach_log _ _ R) as LO. pose proof LO as (X1 & X2 & X3). destruct (X3 _ _ _ _ E) as (u & t & w & M1 & M2 & M3 & M4 & M5 & M6 & M7).
  split; [exists u, t, w; auto|]. split; [auto|]. split; [auto|].
  assert (After : forall id, id = sid \/ id = rid -> ~ matched l2 id).
  { intros id Hid (s' & r' & Hi & Hs). apply in_split in Hi. destruct Hi as (m1 & m2 & Em).
    assert (E' : a_log a = (l1 ++ EMatch sid rid :: m1) ++ EMatch s' r' :: m2) by (rewrite E, Em, <- app_assoc; reflexivity).
    destruct (X3 _ _ _ _ E') as (_ & _ & _ & _ & _ & _ & N4 & N5 & _).
    assert (matched (l1 ++ EMatch sid rid :: m1) id).
    { exists sid, rid. split; [apply in_or_app; simpl; auto|]. destruct Hid; auto. }
    destruct Hs as [<- | <-]; auto. }
  split; auto.
Qed.

(** *** What a call leaves alone *)
Record kept (cm : option Z) (rs ts : list Z) (a a' : astate) : Prop := {
  kp_comm : forall h k, cm <> Some h -> comm_at a h = Some k -> comm_at a' h = Some k;
  kp_pend : forall h k x sd id, cm <> Some h -> comm_at a h = Some k -> req_at a x = Some (QPending sd (k_uid k) id) ->
              req_at a' x = Some (QPending sd (k_uid k) id);
  kp_req : forall r q, ~ In r rs -> req_at a r = Some q -> exists q', req_at a' r = Some q' /\ op_id q' = op_id q /\ (report q <> None -> q' = q);
  kp_type : forall h t, ~ In h ts -> a_obj a h = Some (AType t) -> a_obj a' h = Some (AType t);
  kp_log : exists l, a_log a' = a_log a ++ l
}.

Lemma kept_same cm rs ts a a' : (forall x, a_obj a' x = a_obj a x) -> (exists l, a_log a' = a_log a ++ l) -> kept cm rs ts a a'.
Proof.
  intros E L. assert (C : forall x, comm_at a' x = comm_at a x) by (intros; unfold comm_at; rewrite E; reflexivity).
  assert (Q : forall x, req_at a' x = req_at a x) by (intros; unfold req_at; rewrite E; reflexivity).
  constructor; auto.
  - intros h k _. rewrite C. auto.
  - intros h k x sd id _ _. rewrite Q. auto.
  - intros r q _. rewrite Q. eauto.
  - intros h t _. rewrite E. auto.
Qed.
Lemma kept_refl cm rs ts a : kept cm rs ts a a.
Proof. apply kept_same; auto. exists []. rewrite app_nil_r. reflexivity. Qed.
Lemma op_report q q' : op_id q' = op_id q -> report q = None -> report q' = None \/ report q' <> None.
Proof. intros. destruct (report q'); [right; congruence|left; auto]. Qed.
Lemma kept_trans cm rs ts a b d : kept cm rs ts a b -> kept cm rs ts b d -> kept cm rs ts a d.
Proof.
  intros K1 K2. constructor.
  - intros h k N E. apply (kp_comm _ _ _ _ _ K2); auto. apply (kp_comm _ _ _ _ _ K1); auto.
  - intros h k x sd id N E P. eapply (kp_pend _ _ _ _ _ K2); eauto; [apply (kp_comm _ _ _ _ _ K1)|eapply (kp_pend _ _ _ _ _ K1)]; eauto.
  - intros r q N E. destruct (kp_req _ _ _ _ _ K1 _ _ N E) as (q1 & E1 & O1 & C1). destruct (kp_req _ _ _ _ _ K2 _ _ N E1) as (q2 & E2 & O2 & C2).
    exists q2. split; auto. split; [congruence|]. intros Rq. specialize (C1 Rq). subst q1. auto.
  - intros h t N E. apply (kp_type _ _ _ _ _ K2); auto. apply (kp_type _ _ _ _ _ K1); auto.
  - destruct (kp_log _ _ _ _ _ K1) as (l1 & E1). destruct (kp_log _ _ _ _ _ K2) as (l2 & E2). exists (l1 ++ l2). rewrite E2, E1, app_assoc. reflexivity.
Qed.
(** A request that did not exist before need not be named. *)
Lemma kept_fresh cm rs ts a b d h : kept cm rs ts a b -> kept cm (h :: rs) ts b d -> a_obj a h = None -> kept cm rs ts a d.
Proof.
  intros K1 K2 N0. constructor.
  - intros h' k N E. apply (kp_comm _ _ _ _ _ K2); auto. apply (kp_comm _ _ _ _ _ K1); auto.
  - intros h' k x sd id N E P. eapply (kp_pend _ _ _ _ _ K2); eauto; [apply (kp_comm _ _ _ _ _ K1)|eapply (kp_pend _ _ _ _ _ K1)]; eauto.
  - intros r q N E. destruct (kp_req _ _ _ _ _ K1 _ _ N E) as (q1 & E1 & O1 & C1).
    assert (N' : ~ In r (h :: rs)). { intros [<-|X]; auto. unfold req_at in E. rewrite N0 in E. discriminate. }
    destruct (kp_req _ _ _ _ _ K2 _ _ N' E1) as (q2 & E2 & O2 & C2).
    exists q2. split; auto. split; [congruence|]. intros Rq. specialize (C1 Rq). subst q1. auto.
  - intros h' t N E. apply (kp_type _ _ _ _ _ K2); auto. apply (kp_type _ _ _ _ _ K1); auto.
  - destruct (kp_log _ _ _ _ _ K1) as (l1 & E1). destruct (kp_log _ _ _ _ _ K2) as (l2 & E2). exists (l1 ++ l2). rewrite E2, E1, app_assoc. reflexivity.
Qed.
Lemma kept_more cm cm' rs rs' ts ts' a b : kept cm rs ts a b -> (forall h, cm' <> Some h -> cm <> Some h) -> incl rs rs' -> incl ts ts' -> kept cm' rs' ts' a b.
Proof.
  intros K A B D. constructor.
  - intros h k N. apply (kp_comm _ _ _ _ _ K); auto.
  - intros h k x sd id N. eapply (kp_pend _ _ _ _ _ K); eauto.
  - intros r q N. apply (kp_req _ _ _ _ _ K); auto.
  - intros h t N. apply (kp_type _ _ _ _ _ K); auto.
  - apply (kp_log _ _ _ _ _ K).
Qed.

Lemma kept_added cm h o a a' : added h o a a' -> kept cm [] [] a a'.
Proof.
  intros (B & N & E & Oth & M & L). assert (O : forall x o', a_obj a x = Some o' -> a_obj a' x = Some o').
  { intros x o' Ex. rewrite Oth; auto. congruence. }
  constructor.
  - intros x k _ Ex. apply comm_obj in Ex. unfold comm_at. rewrite (O _ _ Ex). reflexivity.
  - intros x k y sd id _ _ Ex. apply req_obj in Ex. unfold req_at. rewrite (O _ _ Ex). reflexivity.
  - intros r q _ Ex. apply req_obj in Ex. exists q. unfold req_at. rewrite (O _ _ Ex). auto.
  - intros x t _. apply O.
  - exists []. rewrite app_nil_r. exact L.
Qed.
Lemma kept_queued sd a cm k p a' : comm_at a cm = Some k -> queued sd a cm k p a' -> kept (Some cm) [] [] a a'.
Proof.
  intros Ek [[B N] Q1 C1 L1 M1 Oth]. constructor.
  - intros x k' Nx Ex. unfold comm_at. rewrite Oth; [apply Ex| |congruence]. intros X. subst x. unfold comm_at in Ex. rewrite N in Ex. discriminate.
  - intros x k' y sd' id Nx Ex Ey. unfold req_at. rewrite Oth; [apply Ey| |].
    + intros X. subst y. unfold req_at in Ey. rewrite N in Ey. discriminate.
    + intros X. subst y. apply req_comm in Ey. congruence.
  - intros r q _ Er. exists q. split; [|auto]. unfold req_at. rewrite Oth; [apply Er| |].
    + intros X. subst r. unfold req_at in Er. rewrite N in Er. discriminate.
    + intros X. subst r. apply req_comm in Er. congruence.
  - intros h t _ Eh. rewrite Oth; auto; [congruence|]. intros X. subst h. apply comm_obj in Ek. congruence.
  - eexists. exact L1.
Qed.
Lemma earliest_in sd g k bf p e : earliest sd g k bf p e -> In p (line (other sd) k).
Proof. intros (E & _). rewrite E. apply in_or_app. simpl. auto. Qed.
Lemma kept_paired sd a cm k id h g bf p e m a' : inv a -> comm_at a cm = Some k -> earliest sd g k bf p e -> paired sd a cm k id h g bf p e m a' ->
  kept (Some cm) [] [] a a'.
Proof.
  intros I Ek Er [[B N] Q1 Q2 C1 L1 M1 Oth]. pose proof (inv_q a (other sd) cm k p I Ek (earliest_in _ _ _ _ _ _ Er)) as Pq. constructor.
  - intros x k' Nx Ex. unfold comm_at. rewrite Oth; [apply Ex| |congruence|].
    + intros X. subst x. unfold comm_at in Ex. rewrite N in Ex. discriminate.
    + intros X. subst x. apply req_comm in Pq. congruence.
  - intros x k' y sd' id' Nx Ex Ey. unfold req_at. rewrite Oth; [apply Ey| | |].
    + intros X. subst y. unfold req_at in Ey. rewrite N in Ey. discriminate.
    + intros X. subst y. apply req_comm in Ey. congruence.
    + intros X. subst y. assert (k_uid k' = k_uid k) by congruence. apply Nx. f_equal. eapply (hy_uid _ (iv_hist _ I)); eauto.
  - intros r q _ Er'. destruct (Z.eq_dec r (p_req p)) as [->|Nr].
    + rewrite Q2. eexists. split; [reflexivity|]. assert (q = QPending (other sd) (k_uid k) (p_id p)) by congruence. subst q.
      split; [destruct sd; reflexivity|]. cbn. congruence.
    + exists q. split; [|auto]. unfold req_at. rewrite Oth; [apply Er'| | |auto].
      * intros X. subst r. unfold req_at in Er'. rewrite N in Er'. discriminate.
      * intros X. subst r. apply req_comm in Er'. congruence.
  - intros x t _ Ex. rewrite Oth; auto; [congruence| |].
    + intros X. subst x. apply comm_obj in Ek. congruence.
    + intros X. subst x. apply req_obj in Pq. congruence.
  - eexists. exact L1.
Qed.
Lemma kept_released_req r q a a' : req_at a r = Some q -> report q <> None -> released r a a' -> kept None [r] [] a a'.
Proof.
  intros Er Rq (N & Oth & M & L & F). constructor.
  - intros h k _ E. unfold comm_at. rewrite Oth; [apply E|]. intros X. subst h. apply comm_req in E. congruence.
  - intros h k x sd id _ E Ex. unfold req_at. rewrite Oth; [apply Ex|]. intros X. subst x. assert (q = QPending sd (k_uid k) id) by congruence. subst q. apply Rq. reflexivity.
  - intros r' q' Nr E. exists q'. split; auto. unfold req_at. rewrite Oth; [apply E|]. intros X. apply Nr. simpl. auto.
  - intros h t _ E. rewrite Oth; auto. intros X. subst h. apply req_obj in Er. congruence.
  - exists []. rewrite app_nil_r. exact L.
Qed.
Lemma s_free_released h a : released h a (set_obj (with_handles a (h :: a_freed a) (a_top a)) h None).
Proof.
  split; [cbn; apply upd_same|]. split; [intros x N; cbn; apply upd_other; auto|]. cbn. auto.
Qed.

(** *** Inversion of the nonblocking operations *)
Lemma isend_inv a b n t d g cm h a' : inv a -> s_isend c b n t d g cm a = Ret h a' ->
  (d = MPI_PROC_NULL /\ added h (AReq QNullSend) a a') \/
  (d = 0 /\ exists k, comm_at a cm = Some k /\
     ((exists bf p e m, earliest Snd g k bf p e /\ xfer_res c a b n t (p_buf p) (p_count p) (p_type p) = Ok m /\ paired Snd a cm k (a_clock a) h g bf p e m a') \/
      (none_goes Snd g k /\ queued Snd a cm k (mkPend (a_clock a) h b n t g) a'))).
Proof.
  intros I E. assert (E0 := E). unfold s_isend in E. destruct (rank_ok d) eqn:Er; [|discriminate]. cbn [negb] in E.
  unfold rank_ok in Er. destruct (Z.eqb_spec d MPI_PROC_NULL) as [->|Nd].
  - left. split; auto. apply alloc_inv in E. destruct E as (fr & top & En & ->).
    destruct (hw_next _ _ _ _ None (iv_hw _ I) En) as (N & B & _). split; [exact B|]. split; [exact N|]. split; [cbn; apply upd_same|].
    split; [intros x Nx; cbn; apply upd_other; auto|]. cbn. auto.
  - right. rewrite orb_false_r in Er. apply Z.eqb_eq in Er. subst d. split; auto.
    destruct (comm_at a cm) as [k|] eqn:Ek; [|discriminate]. exists k. split; auto.
    assert (HH : has_handle a).
    { intros X. unfold sbind, s_alloc in E. rewrite X in E. destruct (first_such _ _) as [[[? ?] ?]|]; discriminate. }
    destruct (goes_cases Snd g k) as [(bf & p & e & Ea)|Nf].
    + left. assert (HX : exists m, xfer_res c a b n t (p_buf p) (p_count p) (p_type p) = Ok m).
      { destruct Ea as (E1 & E2 & E3). cbn [line other goes_with] in *. rewrite E1, (first_such_split (fun q => accepts (p_tag q) g) _ _ _ E2 E3) in E.
        unfold sbind, s_alloc, s_xfer in E. destruct (next_handle _ _) as [[[hh fr] top]|] eqn:En; [|discriminate].
        destruct (hw_next _ _ _ _ None (iv_hw _ I) En) as (N & _). rewrite xfer_frame in E by exact N.
        destruct (xfer_res c a b n t (p_buf p) (p_count p) (p_type p)); try discriminate. eauto. }
      destruct HX as (m & Ex). exists bf, p, e, m. split; auto. split; auto.
      destruct (isend_paired a b n t g cm k bf p e m I HH Ek Ea Ex) as (h2 & a2 & E2 & P & _). rewrite E0 in E2. injection E2 as <- <-. exact P.
    + right. split; auto. destruct (isend_queued (c:=c) a b n t g cm k I HH Ek Nf) as (h2 & a2 & E2 & P). rewrite E0 in E2. injection E2 as <- <-. exact P.
Qed.
Lemma irecv_inv a b n t d g cm h a' : inv a -> s_irecv c b n t d g cm a = Ret h a' ->
  (d = MPI_PROC_NULL /\ added h (AReq QNullRecv) a a') \/
  ((d = 0 \/ d = MPI_ANY_SOURCE) /\ exists k, comm_at a cm = Some k /\
     ((exists bf p e m, earliest Rcv g k bf p e /\ xfer_res c a (p_buf p) n t b n t = Ok m /\ paired Rcv a cm k (a_clock a) h g bf p e m a') \/
      (none_goes Rcv g k /\ queued Rcv a cm k (mkPend (a_clock a) h b n t g) a'))).
Proof.
  intros I E. assert (E0 := E). unfold s_irecv in E. destruct (source_ok d) eqn:Er; [|discriminate]. cbn [negb] in E.
  unfold source_ok in Er. destruct (Z.eqb_spec d MPI_PROC_NULL) as [->|Nd].
  - left. split; auto. apply alloc_inv in E. destruct E as (fr & top & En & ->).
    destruct (hw_next _ _ _ _ None (iv_hw _ I) En) as (N & B & _). split; [exact B|]. split; [exact N|]. split; [cbn; apply upd_same|].
    split; [intros x Nx; cbn; apply upd_other; auto|]. cbn. auto.
  - right. rewrite orb_false_r in Er. apply orb_true_iff in Er. rewrite !Z.eqb_eq in Er. split; auto.
    destruct (comm_at a cm) as [k|] eqn:Ek; [|discriminate]. exists k. split; auto.
    assert (HH : has_handle a).
    { intros X. unfold sbind, s_alloc in E. rewrite X in E. destruct (first_such _ _) as [[[? ?] ?]|]; discriminate. }
    destruct (goes_cases Rcv g k) as [(bf & p & e & Ea)|Nf].
    + left. assert (HX : exists m, xfer_res c a (p_buf p) n t b n t = Ok m).
      { destruct Ea as (E1 & E2 & E3). cbn [line other goes_with] in *. rewrite E1, (first_such_split (fun q => accepts g (p_tag q)) _ _ _ E2 E3) in E.
        unfold sbind, s_alloc, s_xfer in E. destruct (next_handle _ _) as [[[hh fr] top]|] eqn:En; [|discriminate].
        destruct (hw_next _ _ _ _ None (iv_hw _ I) En) as (N & _). rewrite xfer_frame in E by exact N.
        destruct (xfer_res c a (p_buf p) n t b n t); try discriminate. eauto. }
      destruct HX as (m & Ex). exists bf, p, e, m. split; auto. split; auto.
      destruct (irecv_paired a b n t d g cm k bf p e m I HH Er Ek Ea Ex) as (h2 & a2 & E2 & P & _). rewrite E0 in E2. injection E2 as <- <-. exact P.
    + right. split; auto. destruct (irecv_queued (c:=c) a b n t d g cm k I HH Er Ek Nf) as (h2 & a2 & E2 & P & _). rewrite E0 in E2. injection E2 as <- <-. exact P.
Qed.

Lemma isend_kept a b n t d g cm h a' : inv a -> s_isend c b n t d g cm a = Ret h a' -> kept (Some cm) [] [] a a' /\ a_obj a h = None.
Proof.
  intros I E. destruct (isend_inv _ _ _ _ _ _ _ _ _ I E) as [(_ & Ad)|(_ & k & Ek & [(bf & p & e & m & Ea & _ & P)|(_ & Q)])].
  - split; [eapply kept_added; eauto|apply Ad].
  - split; [eapply kept_paired; eauto|apply P].
  - split; [eapply kept_queued; eauto|apply Q].
Qed.
Lemma irecv_kept a b n t d g cm h a' : inv a -> s_irecv c b n t d g cm a = Ret h a' -> kept (Some cm) [] [] a a' /\ a_obj a h = None.
Proof.
  intros I E. destruct (irecv_inv _ _ _ _ _ _ _ _ _ I E) as [(_ & Ad)|(_ & k & Ek & [(bf & p & e & m & Ea & _ & P)|(_ & Q)])].
  - split; [eapply kept_added; eauto|apply Ad].
  - split; [eapply kept_paired; eauto|apply P].
  - split; [eapply kept_queued; eauto|apply Q].
Qed.
Lemma test_kept r a x a' : s_test r a = Ret x a' -> kept None [r] [] a a'.
Proof.
  unfold s_test. destruct (r =? MPI_REQUEST_NULL); [intros E; injection E as _ <-; apply kept_refl|].
  destruct (req_at a r) as [q|] eqn:Er; [|discriminate]. destruct (report q) eqn:Eq; [|intros E; injection E as _ <-; apply kept_refl].
  unfold sbind, s_free. cbn [sret]. intros E. injection E as _ <-. eapply kept_released_req; eauto; [congruence|apply s_free_released].
Qed.
Lemma wait_kept w0 r a x a' : s_wait w0 r a = Ret x a' -> kept None [r] [] a a'.
Proof.
  unfold s_wait, sbind. destruct (s_test r a) as [[[r' f] w] a1| |] eqn:E; try discriminate. destruct (f =? 0); [discriminate|].
  intros X. injection X as _ <-. eapply test_kept; eauto.
Qed.
Lemma kept_none cm rs ts a b : kept None rs ts a b -> kept cm rs ts a b.
Proof. intros K. eapply kept_more; eauto; [discriminate|apply incl_refl|apply incl_refl]. Qed.
Lemma tests_kept : forall n rs a x a', s_tests n rs a = Ret x a' -> kept None (firstn n rs) [] a a'.
Proof.
  induction n as [|n IH]; intros rs a x a'; cbn [s_tests]; [intros E; injection E as _ <-; apply kept_refl|].
  destruct rs as [|r rs]; [intros E; injection E as _ <-; apply kept_refl|]. unfold sbind.
  destruct (s_test r a) as [[[r' f] w] a1| |] eqn:E1; try discriminate. destruct (s_tests n rs a1) as [[[r2 f2] w2] a2| |] eqn:E2; try discriminate.
  intros X. injection X as _ <-. eapply kept_trans; (eapply kept_more; [eauto using test_kept|discriminate| |apply incl_refl]); cbn [firstn]; intros y; simpl; tauto.
Qed.
Lemma waitall_kept : forall n rs a x a', s_waitall n rs a = Ret x a' -> kept None (firstn n rs) [] a a'.
Proof.
  induction n as [|n IH]; intros rs a x a'; cbn [s_waitall]; [intros E; injection E as _ <-; apply kept_refl|].
  destruct rs as [|r rs]; [intros E; injection E as _ <-; apply kept_refl|]. unfold sbind.
  destruct (s_wait _ r a) as [[r' w] a1| |] eqn:E1; try discriminate. destruct (s_waitall n rs a1) as [[r2 w2] a2| |] eqn:E2; try discriminate.
  intros X. injection X as _ <-. eapply kept_trans; (eapply kept_more; [eauto using wait_kept|discriminate| |apply incl_refl]); cbn [firstn]; intros y; simpl; tauto.
Qed.
Lemma testany_kept : forall n rs d a x a', s_testany n d rs a = Ret x a' -> kept None (firstn n rs) [] a a'.
Proof.
  induction n as [|n IH]; intros rs d a x a'; cbn [s_testany]; [intros E; injection E as _ <-; apply kept_refl|].
  destruct rs as [|r rs]; [intros E; injection E as _ <-; apply kept_refl|]. unfold sbind.
  destruct (s_test r a) as [[[r' f] w] a1| |] eqn:E1; try discriminate. destruct (f =? 0).
  - intros E2. eapply kept_trans; (eapply kept_more; [eauto using test_kept|discriminate| |apply incl_refl]); cbn [firstn]; intros y; simpl; tauto.
  - intros X. injection X as _ <-. eapply kept_more; [eauto using test_kept|discriminate| |apply incl_refl]. cbn [firstn]. intros y; simpl; tauto.
Qed.
Lemma new_added a h fr top o : inv a -> next_handle (a_freed a) (a_top a) = Some (h, fr, top) -> added h o a (set_obj (with_handles a fr top) h (Some o)).
Proof.
  intros I En. destruct (hw_next _ _ _ _ None (iv_hw _ I) En) as (N & B & _). split; [exact B|]. split; [exact N|]. split; [cbn; apply upd_same|].
  split; [intros x Nx; cbn; apply upd_other; auto|]. cbn. auto.
Qed.
Lemma comm_new_added a h a' : inv a -> s_comm_new a = Ret h a' -> added h (AComm (mkAcomm (a_made a) [] [])) a a' /\ next_handle (a_freed a) (a_top a) = Some (h, a_freed a', a_top a').
Proof.
  intros I. unfold s_comm_new, sbind. destruct (s_alloc _ a) as [x a1| |] eqn:Ea; try discriminate. apply alloc_inv in Ea. destruct Ea as (fr & top & En & ->).
  intros E. injection E as <- <-. split; [exact (new_added a x fr top _ I En)|exact En].
Qed.
Lemma added_obj h o a b b' : added h o a b -> (forall x, a_obj b' x = a_obj b x) -> a_mem b' = a_mem b -> a_log b' = a_log b -> added h o a b'.
Proof. intros (A1 & A2 & A3 & A4 & A5 & A6) E M L. split; auto. split; auto. rewrite E. split; auto. split; [intros; rewrite E; auto|]. split; congruence. Qed.

Lemma query_state a h q x a' : s_query c h q a = Ret x a' -> a' = a.
Proof. unfold s_query. destruct (type_at c a h); [|discriminate]. destruct (q _); try discriminate. intros E. injection E as _ <-. reflexivity. Qed.
Theorem spec_kept k a Q a' : inv a -> legal c tj k a -> k <> KFinalize -> spec c tj k a = Ret Q a' ->
  kept (comm_of k) (reqs_of k) (types_of k) a a'.
Proof.
  intros I L NF. unfold smap in *.
  assert (New : forall cm rs ts x b, s_comm_new a = Ret x b -> kept cm rs ts a b).
  { intros cm rs ts x b E. destruct (comm_new_added _ _ _ I E) as (Ad & _). eapply kept_more; [eapply (kept_added None); eauto|discriminate|intros ? []|intros ? []]. }
  assert (Start : s_startup a = Ret tt a' -> kept None [] [] a a').
  { unfold s_startup, sbind. destruct (s_comm_new a) as [x a1| |] eqn:E1; try discriminate. destruct (x =? MPI_COMM_WORLD); [|discriminate].
    intros E. injection E as <-. eapply kept_trans; [eapply New; eauto|]. apply kept_same; [reflexivity|]. exists []. rewrite app_nil_r. reflexivity. }
  assert (Send : forall b n t d g cm b0 u b', inv b0 -> s_send c b n t d g cm b0 = Ret u b' -> kept (Some cm) [] [] b0 b').
  { intros b n t d g cm b0 u b' I0. unfold s_send, sbind. destruct (s_isend c b n t d g cm b0) as [h a1| |] eqn:E1; try discriminate.
    destruct (s_wait _ h a1) as [w a2| |] eqn:E2; try discriminate. intros E. injection E as _ <-. destruct (isend_kept _ _ _ _ _ _ _ _ _ I0 E1) as [K N].
    eapply kept_fresh; eauto. apply kept_none. eapply wait_kept; eauto. }
  destruct k; cbn [spec legal comm_of reqs_of types_of] in *; unfold smap; try (unfold sbind at 1);
  try (destruct (s_startup a) as [[] a1| |] eqn:E1; try discriminate; intros E; apply Ret_state in E; subst a'; apply Start; auto; fail);
  try (match goal with |- context [if ?b then sret _ else s_comm_new] => destruct b end;
       [cbn [sret]; intros E; apply Ret_state in E; subst a'; apply kept_refl|];
       destruct (s_comm_new a) as [x a1| |] eqn:E1; try discriminate; intros E; apply Ret_state in E; subst a'; eapply New; eauto; fail);
  try (match goal with |- context [s_isend ?c ?b ?n ?t ?d ?g ?cm a] => destruct (s_isend c b n t d g cm a) as [x a1| |] eqn:E1 end; try discriminate;
       intros E; apply Ret_state in E; subst a'; eapply isend_kept; eauto; fail);
  try (match goal with |- context [s_irecv ?c ?b ?n ?t ?d ?g ?cm a] => destruct (s_irecv c b n t d g cm a) as [x a1| |] eqn:E1 end; try discriminate;
       intros E; apply Ret_state in E; subst a'; eapply irecv_kept; eauto; fail);
  try (match goal with |- context [s_send ?c ?b ?n ?t ?d ?g ?cm a] => destruct (s_send c b n t d g cm a) as [x a1| |] eqn:E1 end; try discriminate;
       intros E; apply Ret_state in E; subst a'; eapply Send; eauto; fail);
  try (match goal with |- context [s_query ?c ?h ?q a] => destruct (s_query c h q a) as [x a1| |] eqn:E1 end; try discriminate;
       intros E; apply Ret_state in E; subst a'; apply query_state in E1; subst a1; apply kept_refl; fail);
  try (match goal with |- context [s_moves ?f a] => destruct (s_moves f a) as [x a1| |] eqn:E1 end; try discriminate;
       intros E; apply Ret_state in E; subst a'; apply moves_state in E1; destruct E1 as [m ->];
       apply kept_same; [reflexivity|]; exists []; rewrite app_nil_r; reflexivity);
  try (unfold s_cart; match goal with |- context [existsb ?f ?l] => destruct (existsb f l) end; [discriminate|];
       destruct (s_comm_new a) as [x a1| |] eqn:E1; try discriminate; intros E; apply Ret_state in E; subst a'; eapply New; eauto; fail).
  - congruence.
  - intros E. apply Ret_state in E. subst a'. apply kept_refl.
  - destruct (s_comm_new a) as [x a1| |] eqn:E1; try discriminate. intros E; apply Ret_state in E; subst a'. eapply New; eauto.
  - (* comm_free *) unfold s_comm_free. destruct (comm_at a comm) as [k|] eqn:Ek; [|discriminate]. unfold sbind, s_free. cbn [sret].
    intros E. apply Ret_state in E. subst a'. constructor; cbn.
    + intros h k' N Eh. assert (h <> comm) by congruence. unfold comm_at. cbn. rewrite upd_other by auto. exact Eh.
    + intros h k' x sd id N Eh Ex. unfold req_at. cbn. rewrite upd_other; [exact Ex|]. intros X. subst x. apply req_comm in Ex. congruence.
    + intros r q _ Er. exists q. split; auto. unfold req_at. cbn. rewrite upd_other; [exact Er|]. intros X. subst r. apply req_comm in Er. congruence.
    + intros h t _ Eh. rewrite upd_other; auto. intros X. subst h. apply comm_obj in Ek. congruence.
    + exists []. rewrite app_nil_r. reflexivity.
  - (* irsend *) unfold s_irsend, sbind. match goal with |- context [s_isend ?c ?b ?n ?t ?d ?g ?cm a] => destruct (s_isend c b n t d g cm a) as [x a1| |] eqn:E1 end; try discriminate.
    destruct (complete a1 x); [|discriminate]. intros E. apply Ret_state in E. subst a'. eapply isend_kept; eauto.
  - (* recv *) unfold s_recv, sbind. match goal with |- context [s_irecv ?c ?b ?n ?t ?d ?g ?cm a] => destruct (s_irecv c b n t d g cm a) as [x a1| |] eqn:E1 end; try discriminate.
    destruct (s_wait _ x a1) as [[y w] a2| |] eqn:E2; try discriminate. cbn [sret]. intros E. apply Ret_state in E. subst a'.
    destruct (irecv_kept _ _ _ _ _ _ _ _ _ I E1) as [K N]. eapply kept_fresh; eauto. apply kept_none. eapply wait_kept; eauto.
  - (* sendrecv *) unfold s_sendrecv, sbind. match goal with |- context [s_irecv ?c ?b ?n ?t ?d ?g ?cm a] => destruct (s_irecv c b n t d g cm a) as [x a1| |] eqn:E1 end; try discriminate.
    match goal with |- context [s_send ?c ?b ?n ?t ?d ?g ?cm a1] => destruct (s_send c b n t d g cm a1) as [u a2| |] eqn:E2 end; try discriminate.
    destruct (s_wait _ x a2) as [[y w] a3| |] eqn:E3; try discriminate. cbn [sret]. intros E. apply Ret_state in E. subst a'.
    destruct (irecv_kept _ _ _ _ _ _ _ _ _ I E1) as [K N]. pose proof (irecv_keeps _ _ _ _ _ _ _ _ _ _ I E1) as I1.
    eapply kept_fresh; [|apply kept_none; eapply wait_kept; eauto|exact N]. eapply kept_trans; eauto.
  - destruct (s_test req a) as [[[? ?] ?] a1| |] eqn:E1; try discriminate. intros E; apply Ret_state in E; subst a'. eapply test_kept; eauto.
  - destruct (s_wait _ req a) as [[? ?] a1| |] eqn:E1; try discriminate. intros E; apply Ret_state in E; subst a'. eapply wait_kept; eauto.
  - destruct (s_testany _ _ _ a) as [[[? ?] ?] a1| |] eqn:E1; try discriminate. intros E; apply Ret_state in E; subst a'. eapply testany_kept; eauto.
  - unfold s_waitany, sbind. destruct (s_testany _ _ _ a) as [[[? f] ?] a1| |] eqn:E1; try discriminate. destruct (f =? 0); [discriminate|]. cbn [sret].
    intros E; apply Ret_state in E; subst a'. eapply testany_kept; eauto.
  - destruct (s_tests _ _ a) as [[[? ?] ?] a1| |] eqn:E1; try discriminate. intros E; apply Ret_state in E; subst a'. eapply tests_kept; eauto.
  - destruct (s_waitall _ _ a) as [[? ?] a1| |] eqn:E1; try discriminate. intros E; apply Ret_state in E; subst a'. eapply waitall_kept; eauto.
  - destruct (s_tests _ _ a) as [[[? ?] ?] a1| |] eqn:E1; try discriminate. intros E; apply Ret_state in E; subst a'. eapply tests_kept; eauto.
  - destruct (s_tests _ _ a) as [[[? ?] ?] a1| |] eqn:E1; try discriminate. intros E; apply Ret_state in E; subst a'. eapply tests_kept; eauto.
  - (* request_free *) unfold s_request_free. unfold complete in L. destruct (req =? MPI_REQUEST_NULL); cbn [orb] in L.
    + cbn [sret]. intros E. apply Ret_state in E. subst a'. apply kept_refl.
    + unfold sbind, s_free. cbn [sret]. intros E. apply Ret_state in E. subst a'. destruct (req_at a req) as [q|] eqn:Er; [|discriminate].
      eapply kept_released_req; eauto; [destruct (report q); [congruence|discriminate]|apply s_free_released].
  - unfold s_iprobe. destruct (negb _); [discriminate|]. destruct (comm_at a comm); [|discriminate]. destruct (first_such _ _) as [[[? ?] ?]|]; cbn [sret];
    intros E; apply Ret_state in E; subst a'; apply kept_refl.
  - unfold s_probe, s_iprobe, sbind. destruct (negb _); [discriminate|]. destruct (comm_at a comm); [|discriminate]. destruct (first_such _ _) as [[[? ?] ?]|]; cbn;
    intros E; [apply Ret_state in E; subst a'; apply kept_refl|discriminate].
  - (* type create *) unfold s_type_create. destruct (next_handle _ _) as [y|]; [|discriminate]. destruct (make_type _ _ _ _); try discriminate.
    unfold sbind. destruct (s_alloc _ a) as [h a1| |] eqn:Ea; try discriminate. apply alloc_inv in Ea. destruct Ea as (fr & top & En & ->). cbn [sret].
    intros E. apply Ret_state in E. subst a'. eapply (kept_trans None [] []); [eapply kept_added; eapply new_added; eauto|].
    apply kept_same; [reflexivity|]. exists []. rewrite app_nil_r. reflexivity.
  - (* type commit *) unfold s_type_commit. destruct (a_obj a h) as [[k|q|t]|] eqn:Eo; cbn [sret]; intros E; apply Ret_state in E; subst a'; try apply kept_refl.
    constructor; cbn.
    + intros x k _ Ex. unfold comm_at. cbn. rewrite upd_other; [exact Ex|]. intros X. subst x. apply comm_obj in Ex. congruence.
    + intros x k y sd id _ _ Ex. unfold req_at. cbn. rewrite upd_other; [exact Ex|]. intros X. subst y. apply req_obj in Ex. congruence.
    + intros r q _ Er. exists q. split; auto. unfold req_at. cbn. rewrite upd_other; [exact Er|]. intros X. subst r. apply req_obj in Er. congruence.
    + intros x t' N Ex. rewrite upd_other; auto.
    + exists []. rewrite app_nil_r. reflexivity.
  - (* type free *) unfold s_type_free, sbind, s_free. cbn [sret]. intros E. apply Ret_state in E. subst a'. destruct L as (t & Eo).
    constructor; cbn.
    + intros x k _ Ex. unfold comm_at. cbn. rewrite upd_other; [exact Ex|]. intros X. subst x. apply comm_obj in Ex. congruence.
    + intros x k y sd id _ _ Ex. unfold req_at. cbn. rewrite upd_other; [exact Ex|]. intros X. subst y. apply req_obj in Ex. congruence.
    + intros r q _ Er. exists q. split; auto. unfold req_at. cbn. rewrite upd_other; [exact Er|]. intros X. subst r. apply req_obj in Er. congruence.
    + intros x t' N Ex. rewrite upd_other; auto.
    + exists []. rewrite app_nil_r. reflexivity.
  - intros E. apply Ret_state in E. subst a'. apply kept_same; [reflexivity|]. exists []. rewrite app_nil_r. reflexivity.
Qed.
End Facts.
