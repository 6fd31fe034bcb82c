(** Facts about collectives. *)
From Verif Require Import Base ListModel HandleExact TypeModel TypeSpec CopyModel CopySpec SysModel CollModel SysCalls SysSpec SysLog SysReach SysInv SysAbs SysSim SysSim3 SysHist SysFacts SysFacts2 SysFacts3 SysFacts6 CollSpec.

Lemma s32_of_u64 x : to_s32 (to_u64 x) = to_s32 x.
Proof.
  unfold to_s32, to_u64. f_equal. rewrite (Z.div_mod x TWO64) at 2 by discriminate.
  replace (TWO64 * (x / TWO64) + x mod TWO64 + 2147483648) with (x mod TWO64 + 2147483648 + (TWO32 * (x / TWO64)) * TWO32)
    by (unfold TWO64, TWO32; ring).
  rewrite Z_mod_plus_full. reflexivity.
Qed.
Lemma s32_mul_u64 d e : to_s32 (d * to_u64 e) = to_s32 (d * e).
Proof. rewrite <- (s32_of_u64 (d * to_u64 e)), <- (s32_of_u64 (d * e)). unfold to_u64. rewrite Zmult_mod_idemp_r. reflexivity. Qed.

Section Facts.
Context {c : cfg} {tj : Z -> tjunk}.
Notation reach := (SysReach.reach c tj).

Lemma msg_res a src n t dst nd dt ed S D : message c a src n t dst nd dt ed S D ->
  exists m', xfer_res c a src n t dst nd dt = Ok m' /\ same_domain (a_mem a) m' /\ copied (a_mem a) m' S D.
Proof.
  intros [(ts & es & td & E1 & E2 & T & Ag & F1 & F2 & -> & ->) CO MO B]. eapply (@xfer_copy c); eauto.
Qed.

(** A collective whose plan is a well-formed message. *)
Lemma coll_moves s a k src n t dst nd dt m' : reach s a -> coll_plan c a k = Some (Move src n t dst nd dt) ->
  xfer_res c a src n t dst nd dt = Ok m' -> exec c (KColl k) s = Ok (VUnit, set_mem s m').
Proof.
  intros R E X. pose proof (reach_abs _ _ R) as A.
  assert (D : defined (coll_res c k a)). { unfold coll_res. rewrite E. cbn [plan_res]. rewrite X. exact Logic.I. }
  cbn [exec]. unfold mmap. rewrite (bind_run _ _ tt s (set_mem s m')); [reflexivity|].
  rewrite (@coll_run c tj s a k A D), E. cbn [plan_res]. rewrite X. reflexivity.
Qed.
Lemma only_set s m : only_memory s (set_mem s m). Proof. destruct s. reflexivity. Qed.

(** The common conclusion: all of [ks] lead to the same state, in which the message has arrived. *)
Lemma deliver s a src n t dst nd dt ed S D (ks : coll -> Prop) : reach s a -> message c a src n t dst nd dt ed S D ->
  (forall k, ks k -> coll_plan c a k = Some (Move src n t dst nd dt)) ->
  exists s', only_memory s s' /\ same_domain (s_mem s) (s_mem s') /\ copied (s_mem s) (s_mem s') S D /\
    forall k, ks k -> exec c (KColl k) s = Ok (VUnit, s').
Proof.
  intros R M H. destruct (msg_res _ _ _ _ _ _ _ _ _ _ M) as (m' & X & SD & Cp). rewrite (ab_mem (reach_abs _ _ R)).
  exists (set_mem s m'). split; [apply only_set|]. split; [exact SD|]. split; [exact Cp|].
  intros k Hk. eapply coll_moves; eauto.
Qed.

Lemma displaced_is a t e b d ds : extent_of c a t e -> is_int (d * e) -> 0 <= b + d * e < TWO64 -> displaced c a t b (d :: ds) = Some (b + d * e).
Proof.
  intros (ts & E & _ & Ex) I Rg. unfold displaced. rewrite E, Ex, s32_mul_u64, to_s32_id by exact I. rewrite to_u64_id by exact Rg. reflexivity.
Qed.
Lemma not_in_place b p : b <> MPI_IN_PLACE -> in_place b p = p.
Proof. intros N. unfold in_place. apply Z.eqb_neq in N. rewrite N. reflexivity. Qed.

Theorem C56_lemma s a sb n ty rb ed S D ns : reach s a -> message c a sb n ty rb n ty ed S D -> sb <> MPI_IN_PLACE ->
  exists s', only_memory s s' /\ same_domain (s_mem s) (s_mem s') /\ copied (s_mem s) (s_mem s') S D /\
    forall op k, In k [CReduce sb rb n ty op 0; CAllreduce sb rb n ty op; CScan sb rb n ty op; CReduceScatter sb rb (n :: ns) ty op] ->
      exec c (KColl k) s = Ok (VUnit, s').
Proof.
  intros R M N.
  destruct (deliver s a sb n ty rb n ty ed S D
    (fun k => exists op, In k [CReduce sb rb n ty op 0; CAllreduce sb rb n ty op; CScan sb rb n ty op; CReduceScatter sb rb (n :: ns) ty op]) R M) as (s' & H1 & H2 & H3 & H4).
  - intros k (op & [<-|[<-|[<-|[<-|[]]]]]); cbn [coll_plan]; rewrite ?(not_in_place _ _ N); reflexivity.
  - exists s'. split; auto. split; auto. split; auto. intros op k Hk. apply H4. eauto.
Qed.

Theorem C57_plain_lemma s a sb sn st rb rn rt ed S D : reach s a -> message c a sb sn st rb rn rt ed S D ->
  exists s', only_memory s s' /\ same_domain (s_mem s) (s_mem s') /\ copied (s_mem s) (s_mem s') S D /\
    exec c (KColl (CAlltoall sb sn st rb rn rt)) s = Ok (VUnit, s') /\
    (sb <> MPI_IN_PLACE -> exec c (KColl (CGather sb sn st rb rn rt 0)) s = Ok (VUnit, s') /\ exec c (KColl (CAllgather sb sn st rb rn rt)) s = Ok (VUnit, s')) /\
    (rb <> MPI_IN_PLACE -> exec c (KColl (CScatter sb sn st rb rn rt 0)) s = Ok (VUnit, s')).
Proof.
  intros R M. destruct (deliver s a sb sn st rb rn rt ed S D (fun k => coll_plan c a k = Some (Move sb sn st rb rn rt)) R M (fun _ H => H)) as (s' & H1 & H2 & H3 & H4).
  exists s'. split; auto. split; auto. split; auto. split; [apply H4; reflexivity|]. split; intros N; [split|]; apply H4; cbn [coll_plan]; rewrite (not_in_place _ _ N); reflexivity.
Qed.

Theorem C57_displaced_lemma s a : reach s a ->
  (* on the receiving side *)
  (forall sb sn st rb rn rns d ds rt ed S D, message c a sb sn st (rb + d * ed) rn rt ed S D -> sb <> MPI_IN_PLACE ->
     is_int (d * ed) -> 0 <= rb + d * ed < TWO64 ->
     exists s', only_memory s s' /\ same_domain (s_mem s) (s_mem s') /\ copied (s_mem s) (s_mem s') S D /\
       exec c (KColl (CGatherv sb sn st rb (rn :: rns) (d :: ds) rt 0)) s = Ok (VUnit, s') /\
       exec c (KColl (CAllgatherv sb sn st rb (rn :: rns) (d :: ds) rt)) s = Ok (VUnit, s')) /\
  (* on the sending side *)
  (forall sb sn sns d ds st es rb rn rt ed S D, message c a (sb + d * es) sn st rb rn rt ed S D -> extent_of c a st es -> rb <> MPI_IN_PLACE ->
     is_int (d * es) -> 0 <= sb + d * es < TWO64 ->
     exists s', only_memory s s' /\ same_domain (s_mem s) (s_mem s') /\ copied (s_mem s) (s_mem s') S D /\
       exec c (KColl (CScatterv sb (sn :: sns) (d :: ds) st rb rn rt 0)) s = Ok (VUnit, s')) /\
  (* on both sides *)
  (forall sb sn sns d ds st es rb rn rns d' ds' rt ed S D, message c a (sb + d * es) sn st (rb + d' * ed) rn rt ed S D -> extent_of c a st es ->
     is_int (d * es) -> 0 <= sb + d * es < TWO64 -> is_int (d' * ed) -> 0 <= rb + d' * ed < TWO64 ->
     exists s', only_memory s s' /\ same_domain (s_mem s) (s_mem s') /\ copied (s_mem s) (s_mem s') S D /\
       exec c (KColl (CAlltoallv sb (sn :: sns) (d :: ds) st rb (rn :: rns) (d' :: ds') rt)) s = Ok (VUnit, s')).
Proof.
  intros R.
  assert (EX : forall src n t dst nd dt ed S D, message c a src n t dst nd dt ed S D -> extent_of c a dt ed).
  { intros * [(ts & es & td & E1 & E2 & T & _) _ _ _]. exists td. split; auto. apply T. }
  split; [|split].
  - intros * M N I Rg. pose proof (EX _ _ _ _ _ _ _ _ _ M) as X.
    destruct (deliver _ _ _ _ _ _ _ _ _ _ _ (fun k => coll_plan c a k = Some (Move sb sn st (rb + d * ed) rn rt)) R M (fun _ H => H)) as (s' & H1 & H2 & H3 & H4).
    exists s'. split; auto. split; auto. split; auto. split; apply H4; cbn [coll_plan]; rewrite (not_in_place _ _ N), (displaced_is a rt ed rb d ds X I Rg); reflexivity.
  - intros * M X N I Rg.
    destruct (deliver _ _ _ _ _ _ _ _ _ _ _ (fun k => coll_plan c a k = Some (Move (sb + d * es) sn st rb rn rt)) R M (fun _ H => H)) as (s' & H1 & H2 & H3 & H4).
    exists s'. split; auto. split; auto. split; auto. apply H4; cbn [coll_plan]; rewrite (not_in_place _ _ N), (displaced_is a st es sb d ds X I Rg); reflexivity.
  - intros * M X I Rg I' Rg'. pose proof (EX _ _ _ _ _ _ _ _ _ M) as X'.
    destruct (deliver _ _ _ _ _ _ _ _ _ _ _ (fun k => coll_plan c a k = Some (Move (sb + d * es) sn st (rb + d' * ed) rn rt)) R M (fun _ H => H)) as (s' & H1 & H2 & H3 & H4).
    exists s'. split; auto. split; auto. split; auto. apply H4; cbn [coll_plan].
    rewrite (displaced_is a st es sb d ds X I Rg), (displaced_is a rt ed rb d' ds' X' I' Rg'); reflexivity.
Qed.

Theorem C57_alltoallw_lemma s a sb sn sns sd sds st sts rb rn rns rd rds rt rts ed S D : reach s a -> message c a (sb + sd) sn st (rb + rd) rn rt ed S D ->
  0 <= sb + sd < TWO64 -> 0 <= rb + rd < TWO64 ->
  exists s', only_memory s s' /\ same_domain (s_mem s) (s_mem s') /\ copied (s_mem s) (s_mem s') S D /\
    exec c (KColl (CAlltoallw sb (sn :: sns) (sd :: sds) (st :: sts) rb (rn :: rns) (rd :: rds) (rt :: rts))) s = Ok (VUnit, s').
Proof.
  intros R M R1 R2.
  destruct (deliver _ _ _ _ _ _ _ _ _ _ _ (fun k => coll_plan c a k = Some (Move (sb + sd) sn st (rb + rd) rn rt)) R M (fun _ H => H)) as (s' & H1 & H2 & H3 & H4).
  exists s'. split; auto. split; auto. split; auto. apply H4; cbn [coll_plan moved]. rewrite !to_u64_id by assumption. reflexivity.
Qed.

(** *** Communicator constructors *)
Lemma new_comm s a k : reach s a -> legal c tj k a -> spec c tj k a = smap (is VInt) s_comm_new a ->
  (has_handle a -> exists h s' a', does c tj s a k (VInt h) s' a' /\ h <> MPI_COMM_NULL /\ added h (AComm (mkAcomm (a_made a) [] [])) a a') /\
  (~ has_handle a -> exec c k s = Abort handles_msg).
Proof.
  intros R L E. pose proof (reach_inv _ _ R) as I. split.
  - intros H. destruct (handle_next _ I H) as (h & fr & top & En & N & B).
    assert (Es : exists a', s_comm_new a = Ret h a') by (unfold s_comm_new, sbind, s_alloc; rewrite En; eexists; reflexivity). destruct Es as (a' & Es).
    destruct (does_intro (tj := tj) k s a (is VInt h) a' (VInt h) R L) as (s' & D).
    + rewrite E. unfold smap, sbind. rewrite Es. reflexivity.
    + unfold is. auto.
    + exists h, s', a'. split; [exact D|]. split; [unfold MPI_COMM_NULL; lia|]. eapply comm_new_added; eauto.
  - intros H. apply (run_abort (tj := tj) _ _ a); auto. rewrite E. unfold smap, s_comm_new, sbind, s_alloc, has_handle in *.
    destruct (next_handle (a_freed a) (a_top a)); [|reflexivity]. exfalso. apply H. discriminate.
Qed.
Lemma null_comm s a k : spec c tj k a = Ret (is VInt MPI_COMM_NULL) a -> exec c k s = Ok (VInt MPI_COMM_NULL, s) -> legal c tj k a -> reach s a ->
  does c tj s a k (VInt MPI_COMM_NULL) s a.
Proof. intros E X L R. split; auto. split; auto. split; auto. exists (is VInt MPI_COMM_NULL). split; auto. reflexivity. Qed.

Theorem C64_lemma s a k P : reach s a -> room_comm a -> makes k P ->
  (P -> has_handle a -> exists h s' a', does c tj s a k (VInt h) s' a' /\ h <> MPI_COMM_NULL /\ added h (AComm (mkAcomm (a_made a) [] [])) a a') /\
  (P -> ~ has_handle a -> exec c k s = Abort handles_msg) /\
  (~ P -> does c tj s a k (VInt MPI_COMM_NULL) s a).
Proof.
  intros R Rm M. destruct M.
  - destruct (new_comm s a (KCommDup cm) R Rm eq_refl) as [A B]. split; auto. split; auto. tauto.
  - assert (L : legal c tj (KCommCreate cm g) a) by (cbn; auto).
    destruct (Z.eqb_spec g MPI_GROUP_NULL) as [E1|N1]; [|destruct (Z.eqb_spec g MPI_GROUP_EMPTY) as [E2|N2]].
    + split; [tauto|]. split; [tauto|]. intros _. apply null_comm; auto; subst g; reflexivity.
    + split; [tauto|]. split; [tauto|]. intros _. apply null_comm; auto; subst g; reflexivity.
    + destruct (new_comm s a (KCommCreate cm g) R L) as [A B]; [|split; auto; split; auto; tauto].
      cbn [spec]. apply Z.eqb_neq in N1, N2. rewrite N1, N2. reflexivity.
  - assert (L : legal c tj (KCommSplit cm color key) a) by (cbn; auto). destruct (Z.eqb_spec color MPI_UNDEFINED) as [E|N].
    + split; [tauto|]. split; [tauto|]. intros _. apply null_comm; auto; subst color; reflexivity.
    + destruct (new_comm s a (KCommSplit cm color key) R L) as [A B]; [|split; auto; split; auto; tauto].
      cbn [spec]. apply Z.eqb_neq in N. rewrite N. reflexivity.
  - assert (L : legal c tj (KIntercomm l p) a) by (cbn; auto). destruct (Z.eqb_spec l MPI_COMM_NULL) as [E1|N1]; [destruct (Z.eqb_spec p MPI_COMM_NULL) as [E2|N2]|].
    + split; [tauto|]. split; [tauto|]. intros _. apply null_comm; auto; subst l p; reflexivity.
    + destruct (new_comm s a (KIntercomm l p) R L) as [A B]; [|split; auto; split; auto; tauto].
      cbn [spec]. apply Z.eqb_neq in N2. rewrite N2, andb_false_r. reflexivity.
    + destruct (new_comm s a (KIntercomm l p) R L) as [A B]; [|split; auto; split; auto; tauto].
      cbn [spec]. apply Z.eqb_neq in N1. rewrite N1. reflexivity.
  - destruct (new_comm s a (KCartCreate cm n dims per re) R) as [A B]; [cbn; auto| |split; auto; split; auto; tauto].
    cbn [spec]. unfold smap, sbind, s_cart. destruct (existsb _ _) eqn:E; [|reflexivity]. exfalso.
    apply existsb_exists in E. destruct E as (d & Hd & Ed). rewrite Z.gtb_ltb in Ed. apply Z.ltb_lt in Ed. specialize (H0 d Hd). lia.
Qed.

Theorem C66_create_lemma s a cm n dims per re : reach s a -> room_comm a -> n <= Z.of_nat (length dims) ->
  (exists d, In d (firstn (Z.to_nat n) dims) /\ 1 < d) -> exec c (KCartCreate cm n dims per re) s = Abort "MPI_Cart_create: Greater dimension than no. of procs".
Proof.
  intros R Rm L (d & Hd & Ld). apply (run_abort (tj := tj) _ _ a); auto; [cbn; auto|]. cbn [spec]. unfold smap, sbind, s_cart.
  destruct (existsb _ _) eqn:E; [reflexivity|]. exfalso. assert (X : existsb (fun d => d >? 1) (firstn (Z.to_nat n) dims) = true); [|congruence].
  apply existsb_exists. exists d. split; auto. rewrite Z.gtb_ltb. apply Z.ltb_lt. exact Ld.
Qed.
End Facts.

Theorem C59_lemma (c : cfg) (s : sys) sb sn sns ds st rb rn rns rt root op :
  let ks := [CBcast sb sn st root; CGather sb sn st rb rn rt root; CGatherv sb sn st rb rns ds rt root;
             CScatter sb sn st rb rn rt root; CScatterv sb sns ds st rb rn rt root] in
  sb <> MPI_IN_PLACE -> rb <> MPI_IN_PLACE ->
  (forall k, In k ks -> root = MPI_ROOT -> exec c (KColl k) s = Ok (VUnit, s)) /\
  (forall k, In k ks -> root <> MPI_ROOT -> root <> 0 -> exists w, exec c (KColl k) s = Abort w) /\
  (root <> 0 -> exists w, exec c (KColl (CReduce sb rb sn st op root)) s = Abort w).
Proof.
  intros ks N1 N2. apply Z.eqb_neq in N1, N2. split; [|split].
  - intros k H ->. repeat (destruct H as [<-|H]; [cbn [exec MPI_coll]; rewrite ?N1, ?N2; reflexivity|]). destruct H.
  - intros k H A B. apply Z.eqb_neq in A, B. repeat (destruct H as [<-|H]; [cbn [exec MPI_coll]; rewrite ?N1, ?N2; unfold root_test; rewrite A, B; eexists; reflexivity|]). destruct H.
  - intros B. apply Z.eqb_neq in B. cbn [exec MPI_coll]. rewrite B. eexists. reflexivity.
Qed.

Theorem C58_marker_lemma : MPI_IN_PLACE = 2 ^ 64 - 1 /\ MPI_IN_PLACE <> 0 /\ forall m n, mem_ok m -> 2 <= n -> ~ CopySpec.live m [(MPI_IN_PLACE, n)].
Proof.
  split; [reflexivity|]. split; [discriminate|]. intros m n MO N L.
  assert (X := MO _ (L (MPI_IN_PLACE, n) (MPI_IN_PLACE + 1) (or_introl eq_refl) ltac:(unfold inside; cbn [fst snd]; lia))).
  change TWO64 with (MPI_IN_PLACE + 1) in X. lia.
Qed.
