(** Facts for C88. *)
From Coq Require Import Lia.
From Verif Require Import Base HandleSpec HandleExact TypeModel CopyModel SysModel CollModel SysCalls SysSpec SysLog SysReach SysAbs SysInv SysHist SysFacts SysFacts2 SysFacts3 FlowSpec StaleFacts MoveSpec TypeSpec TypeProofs TypeCons TypeStruct TypeMore TypeTree TypeFinal CopySpec CopyProofs.

(** *** Loops *)
Lemma for_ok {S} (P : S -> Prop) body lo hi s s' : for_loop lo hi body s = Ok s' -> P s ->
  (forall i s s', lo <= i < hi -> P s -> body i s = Ok s' -> P s') -> P s'.
Proof.
  unfold for_loop. intros E H B.
  assert (G : forall n i, lo <= i -> i + Z.of_nat n <= Z.max lo hi -> forall s, P s -> for_from n i body s = Ok s' -> P s').
  { induction n as [|n IH]; intros i L U t Ht; cbn [for_from]; [intros X; injection X as <-; exact Ht|].
    destruct (body i t) as [t'| | | |] eqn:F; cbn [bind]; try discriminate.
    apply (IH (i + 1) ltac:(lia) ltac:(lia) t'). apply (B i t); auto. lia. }
  refine (G _ lo (Z.le_refl lo) _ s H E). lia.
Qed.

(** Each byte of [m'] is as in [m], or lies in [W] and is one of the bytes of [m] in [R]. *)
Definition flows (W R : Z -> Prop) (m m' : mem) : Prop :=
  same_layout m m' /\ forall x, m' x = m x \/ (W x /\ exists y, R y /\ m' x = m y).
Lemma flows_refl W R m : flows W R m m.
Proof. split; [intros a; tauto|auto]. Qed.
Lemma flows_mono (W R W' R' : Z -> Prop) m m' : (forall x, W x -> W' x) -> (forall x, R x -> R' x) -> flows W R m m' -> flows W' R' m m'.
Proof. intros HW HR (L & F). split; auto. intros x. destruct (F x) as [?|(A & y & B & C)]; [auto|right]. split; [auto|]. exists y. auto. Qed.
Lemma flows_memcpy W R m0 m d s n m' : flows W R m0 m -> memcpy m d s n = Ok m' ->
  (forall j, 0 <= j < n -> W (d + j) /\ R (s + j)) -> flows W R m0 m'.
Proof.
  intros (L & F) E H. unfold memcpy in E. destruct (_ && _) eqn:C; [|discriminate]. injection E as <-.
  apply andb_true_iff in C. destruct C as (C & _). apply andb_true_iff in C. destruct C as (C & Ad). apply andb_true_iff in C. destruct C as (_ & As).
  assert (Get : forall b k, allocated m b n = true -> 0 <= k < n -> m (b + k) <> None).
  { intros b k A K. unfold allocated in A. rewrite forallb_forall in A. specialize (A (Z.to_nat k)).
    rewrite in_seq in A. specialize (A ltac:(lia)). rewrite Z2Nat.id in A by lia. destruct (m (b + k)); discriminate. }
  split.
  - intros a. destruct ((d <=? a) && (a <? d + n)) eqn:I; [|apply L].
    rewrite andb_true_iff, Z.leb_le, Z.ltb_lt in I. split; intros X; exfalso.
    + apply (L a) in X. apply (Get d (a - d) Ad ltac:(lia)). replace (d + (a - d)) with a by lia. exact X.
    + exact (Get s (a - d) As ltac:(lia) X).
  - intros x. destruct ((d <=? x) && (x <? d + n)) eqn:I; [|apply F].
    rewrite andb_true_iff, Z.leb_le, Z.ltb_lt in I. destruct (H (x - d) ltac:(lia)) as (HW & HR).
    replace (d + (x - d)) with x in HW by lia. right. split; auto.
    destruct (F (s + (x - d))) as [E|(_ & y & Ry & E)]; eauto.
Qed.

Lemma arr_get_at {A} (l : list A) i p : arr_get l i = Ok p -> nth_error l (Z.to_nat i) = Some p.
Proof. unfold arr_get. destruct (_ <? _); [discriminate|]. destruct (nth_error l (Z.to_nat i)); [|discriminate]. intros X. injection X as ->. reflexivity. Qed.

Section Move.
Variable c : cfg.

Lemma crem_ok i n r : crem i n = Ok r -> r = Z.rem i n /\ n <> 0.
Proof. unfold crem. destruct (Z.eqb_spec n 0); [discriminate|]. intros X. injection X as <-. auto. Qed.
Lemma cdiv_ok i n r : cdiv i n = Ok r -> r = Z.quot i n.
Proof. unfold cdiv. destruct (Z.eqb_spec n 0); [discriminate|]. intros X. injection X as <-. auto. Qed.
Lemma u64_add x j : to_u64 (to_u64 x + j) = to_u64 (x + j).
Proof. unfold to_u64. rewrite Zplus_mod_idemp_l. reflexivity. Qed.

Lemma copy_flow m src ns ts dst nd td m' : Pcopy_data2 c m src ns ts dst nd td = Ok m' ->
  flows (in_message c to_s32 td dst nd) (in_source c to_s32 ts src td nd) m m'.
Proof.
  unfold Pcopy_data2. destruct (_ || _); [discriminate|].
  destruct (chk_int (ts_count ts * ns)) as [sn| | | |] eqn:E1; cbn [bind]; try discriminate.
  destruct (chk_int (ts_count td * nd)) as [dn| | | |] eqn:E2; cbn [bind]; try discriminate.
  assert (dn = ts_count td * nd) as -> by (unfold chk_int in E2; destruct (in_int _); [injection E2; auto|discriminate]).
  destruct (sn <? _); [discriminate|].
  destruct (Type_extent c ts) as [es| | | |] eqn:Es; cbn [bind]; try discriminate.
  destruct (Type_extent c td) as [ed| | | |] eqn:Ed; cbn [bind]; try discriminate.
  intros E. refine (for_ok (flows _ _ m) _ _ _ _ _ E (flows_refl _ _ _) _). clear E. intros i t t' Hi F.
  destruct (crem i (ts_count ts)) as [si| | | |] eqn:A1; cbn [bind]; try discriminate.
  destruct (arr_get (ts_pairs ts) si) as [p| | | |] eqn:A2; cbn [bind]; try discriminate.
  destruct (crem i (ts_count td)) as [di| | | |] eqn:A3; cbn [bind]; try discriminate.
  destruct (arr_get (ts_pairs td) di) as [q| | | |] eqn:A4; cbn [bind]; try discriminate.
  destruct (_ && _); [discriminate|].
  destruct (cdiv i (ts_count ts)) as [sq| | | |] eqn:A5; cbn [bind]; try discriminate.
  destruct (cdiv i (ts_count td)) as [dq| | | |] eqn:A6; cbn [bind]; try discriminate.
  destruct (Simpletype_length c (tp_type q)) as [len| | | |] eqn:A7; cbn [bind]; try discriminate.
  apply crem_ok in A1. apply crem_ok in A3. apply cdiv_ok in A5. apply cdiv_ok in A6. destruct A1 as (-> & _). destruct A3 as (-> & _). subst sq dq.
  apply arr_get_at in A2. apply arr_get_at in A4. intros E. apply (flows_memcpy _ _ _ _ _ _ _ _ F E). intros j Hj.
  unfold padd. rewrite !to_s32_u64. split; exists i; (split; [exact Hi|]).
  - exists q, q, ed, len, j. rewrite u64_add. auto 8.
  - exists p, q, es, len, j. rewrite u64_add. auto 8.
Qed.
Lemma nested_index n i j : 0 <= j < n -> 0 <= i -> Z.rem (i * n + j) n = j /\ Z.quot (i * n + j) n = i.
Proof.
  intros Hj Hi. assert (0 <= i * n + j) by nia. rewrite Z.rem_mod_nonneg, Z.quot_div_nonneg by lia. split.
  - rewrite Z.add_comm, Z.mod_add by lia. apply Z.mod_small. lia.
  - rewrite Z.add_comm, Z.div_add by lia. rewrite Z.div_small by lia. lia.
Qed.
Lemma pack_flow m ib n t ob sz p m' p' : Pack c m ib n t ob sz p = Ok (m', p') -> flows (in_packed ob sz p) (in_message c id t ib n) m m'.
Proof.
  unfold Pack. destruct (Type_extent c t) as [ex| | | |] eqn:Ex; cbn [bind]; try discriminate. intros E.
  cut (flows (in_packed ob sz p) (in_message c id t ib n) m (fst (m', p')) /\ p <= snd (m', p')); [intros (H & _); exact H|].
  refine (for_ok (fun st => flows (in_packed ob sz p) (in_message c id t ib n) m (fst st) /\ p <= snd st) _ _ _ _ _ E _ _); [split; [apply flows_refl|apply Z.le_refl]|].
  clear E. intros i st st' Hi H E.
  refine (for_ok (fun st => flows (in_packed ob sz p) (in_message c id t ib n) m (fst st) /\ p <= snd st) _ _ _ _ _ E H _).
  clear E H st st'. intros j (t0, pos) st' Hj (F & P). cbn [fst snd] in *.
  destruct (arr_get (ts_pairs t) j) as [q| | | |] eqn:A; cbn [bind]; try discriminate.
  destruct (Simpletype_length c (tp_type q)) as [len| | | |] eqn:A7; cbn [bind]; try discriminate.
  destruct (chk_int (pos + len)) as [e| | | |] eqn:A8; cbn [bind]; try discriminate.
  assert (e = pos + len) as -> by (unfold chk_int in A8; destruct (in_int _); [injection A8; auto|discriminate]).
  destruct (Z.gtb_spec (pos + len) sz) as [?|G]; [discriminate|].
  destruct (memcpy _ _ _ _) as [t1| | | |] eqn:M; cbn [bind]; try discriminate. intros X. injection X as <-. cbn [fst snd].
  assert (0 <= len) by (unfold memcpy in M; destruct (Z.leb_spec 0 len); [auto|discriminate]).
  split; [|lia]. apply (flows_memcpy _ _ _ _ _ _ _ _ F M). intros k Hk. unfold padd. split.
  - exists (pos + k). split; [lia|]. rewrite u64_add. f_equal. lia.
  - destruct (nested_index (ts_count t) i j ltac:(lia) ltac:(lia)) as (R1 & R2).
    exists (i * ts_count t + j). split; [nia|]. exists q, q, ex, len, k. rewrite R1, R2, u64_add. unfold id.
    apply arr_get_at in A. do 5 (split; [auto; lia|]). f_equal. lia.
Qed.
Lemma unpack_flow m ib sz p ob n t m' p' : Unpack c m ib sz p ob n t = Ok (m', p') -> flows (in_message c id t ob n) (in_packed ib sz p) m m'.
Proof.
  unfold Unpack. destruct (Type_extent c t) as [ex| | | |] eqn:Ex; cbn [bind]; try discriminate. intros E.
  cut (flows (in_message c id t ob n) (in_packed ib sz p) m (fst (m', p')) /\ p <= snd (m', p')); [intros (H & _); exact H|].
  refine (for_ok (fun st => flows (in_message c id t ob n) (in_packed ib sz p) m (fst st) /\ p <= snd st) _ _ _ _ _ E _ _); [split; [apply flows_refl|apply Z.le_refl]|].
  clear E. intros i st st' Hi H E.
  refine (for_ok (fun st => flows (in_message c id t ob n) (in_packed ib sz p) m (fst st) /\ p <= snd st) _ _ _ _ _ E H _).
  clear E H st st'. intros j (t0, pos) st' Hj (F & P). cbn [fst snd] in *.
  destruct (arr_get (ts_pairs t) j) as [q| | | |] eqn:A; cbn [bind]; try discriminate.
  destruct (Simpletype_length c (tp_type q)) as [len| | | |] eqn:A7; cbn [bind]; try discriminate.
  destruct (chk_int (pos + len)) as [e| | | |] eqn:A8; cbn [bind]; try discriminate.
  assert (e = pos + len) as -> by (unfold chk_int in A8; destruct (in_int _); [injection A8; auto|discriminate]).
  destruct (Z.gtb_spec (pos + len) sz) as [?|G]; [discriminate|].
  destruct (memcpy _ _ _ _) as [t1| | | |] eqn:M; cbn [bind]; try discriminate. intros X. injection X as <-. cbn [fst snd].
  assert (0 <= len) by (unfold memcpy in M; destruct (Z.leb_spec 0 len); [auto|discriminate]).
  split; [|lia]. apply (flows_memcpy _ _ _ _ _ _ _ _ F M). intros k Hk. unfold padd. split.
  - destruct (nested_index (ts_count t) i j ltac:(lia) ltac:(lia)) as (R1 & R2).
    exists (i * ts_count t + j). split; [nia|]. exists q, q, ex, len, k. rewrite R1, R2, u64_add. unfold id.
    apply arr_get_at in A. do 5 (split; [auto; lia|]). f_equal. lia.
  - exists (pos + k). split; [lia|]. rewrite u64_add. f_equal. lia.
Qed.
End Move.

(** *** Calls that move nothing *)
Definition still {A} (e : sp A) : Prop := forall a x a', e a = Ret x a' -> a_mem a' = a_mem a.
Lemma still_ret {A} (x : A) : still (sret x). Proof. intros a y a' E. injection E as _ <-. reflexivity. Qed.
Lemma still_bind {A B} (e : sp A) (f : A -> sp B) : still e -> (forall x, still (f x)) -> still (sbind e f).
Proof.
  intros He Hf a y a'. unfold sbind. destruct (e a) as [x b| |] eqn:E; try discriminate. intros F.
  rewrite (Hf _ _ _ _ F). exact (He _ _ _ E).
Qed.
Lemma still_smap {A} (f : A -> out -> Prop) e : still e -> still (smap f e).
Proof. intros H. apply still_bind; auto. intros x. apply still_ret. Qed.
Lemma still_alloc mk : still (s_alloc mk).
Proof. intros a x a'. unfold s_alloc. destruct (next_handle _ _) as [[[h fr] top]|]; [|discriminate]. intros E. injection E as _ <-. reflexivity. Qed.
Lemma still_free h : still (s_free h). Proof. intros a x a' E. injection E as _ <-. reflexivity. Qed.
Lemma still_test r : still (s_test r).
Proof.
  intros a x a'. unfold s_test. destruct (r =? _); [intros E; injection E as _ <-; reflexivity|].
  destruct (req_at a r) as [q|]; [|discriminate]. destruct (report q); [|intros E; injection E as _ <-; reflexivity].
  intros E. refine (still_bind _ _ (still_free r) _ _ _ _ E). intros u. apply still_ret.
Qed.
Lemma still_abort {A} w : still (fun _ => @SAbort A w). Proof. intros a x a'. discriminate. Qed.
Lemma still_wait m r : still (s_wait m r).
Proof. apply still_bind; [apply still_test|]. intros [[r' f] w]. destruct (f =? 0); [apply still_abort|apply still_ret]. Qed.
Lemma still_testany : forall n d rs, still (s_testany n d rs).
Proof.
  induction n as [|n IH]; intros d rs; cbn [s_testany]; [apply still_ret|]. destruct rs as [|r rs]; [apply still_ret|].
  apply still_bind; [apply still_test|]. intros [[r' f] w]. destruct (f =? 0); [apply IH|apply still_ret].
Qed.
Lemma still_tests : forall n rs, still (s_tests n rs).
Proof.
  induction n as [|n IH]; intros rs; cbn [s_tests]; [apply still_ret|]. destruct rs as [|r rs]; [apply still_ret|].
  apply still_bind; [apply still_test|]. intros [[r' f] w]. apply still_bind; [apply IH|]. intros [[x y] z]. apply still_ret.
Qed.
Lemma still_waitall : forall n rs, still (s_waitall n rs).
Proof.
  induction n as [|n IH]; intros rs; cbn [s_waitall]; [apply still_ret|]. destruct rs as [|r rs]; [apply still_ret|].
  apply still_bind; [apply still_wait|]. intros [r' w]. apply still_bind; [apply IH|]. intros [x y]. apply still_ret.
Qed.
Lemma still_comm_new : still s_comm_new.
Proof.
  intros a x a' E. unfold s_comm_new in E. refine (still_bind _ _ (still_alloc _) _ _ _ _ E). intros h b y b' F. injection F as _ <-. reflexivity.
Qed.
Lemma still_comm_free h : still (s_comm_free h).
Proof.
  intros a x a' E. unfold s_comm_free in E. destruct (comm_at a h) as [k|]; [|discriminate].
  refine (still_bind _ _ (still_free _) _ _ _ _ E). intros u b y b' F. injection F as _ <-. reflexivity.
Qed.
Lemma still_startup : still s_startup.
Proof.
  apply still_bind; [apply still_comm_new|]. intros h. destruct (h =? _); [|apply still_abort]. intros a x a' E. injection E as _ <-. reflexivity.
Qed.
Lemma still_finalize : still s_finalize. Proof. intros a x a' E. injection E as _ <-. reflexivity. Qed.
Lemma still_request_free r : still (s_request_free r).
Proof.
  intros a x a' E. unfold s_request_free in E. destruct (r =? _); [injection E as _ <-; reflexivity|].
  refine (still_bind _ _ (still_free _) _ _ _ _ E). intros u. apply still_ret.
Qed.
Lemma still_iprobe so g cm : still (s_iprobe so g cm).
Proof.
  intros a x a'. unfold s_iprobe. destruct (negb _); [discriminate|]. destruct (comm_at a cm) as [k|]; [|discriminate].
  destruct (first_such _ _) as [[[? p] ?]|]; intros E; injection E as _ <-; reflexivity.
Qed.
Lemma still_query c h q : still (s_query c h q).
Proof.
  intros a x a'. unfold s_query. destruct (type_at c a h) as [t|]; [|discriminate]. destruct (q t); try discriminate. intros E. injection E as _ <-. reflexivity.
Qed.
Lemma still_commit h : still (s_type_commit h).
Proof. intros a x a'. unfold s_type_commit. destruct (a_obj a h) as [[| |]|]; intros E; injection E as _ <-; reflexivity. Qed.
Lemma still_type_create c tj k : still (s_type_create c tj k).
Proof.
  intros a x a'. unfold s_type_create. destruct (next_handle _ _); [|discriminate]. destruct (make_type c tj a k); try discriminate.
  intros E. refine (still_bind _ _ (still_alloc _) _ _ _ _ E). intros h b y b' F. injection F as _ <-. reflexivity.
Qed.
Lemma still_cart n d : still (s_cart n d).
Proof. unfold s_cart. destruct (existsb _ _); [apply still_abort|apply still_comm_new]. Qed.
Lemma silent_still c tj k : silent k -> still (spec c tj k).
Proof.
  destruct k; cbn [silent spec]; intros S; try (exfalso; exact S); try apply still_smap;
    try solve [apply still_startup | apply still_finalize | apply still_comm_new | apply still_comm_free | apply still_test | apply still_wait
      | apply still_testany | apply still_tests | apply still_waitall | apply still_request_free | apply still_iprobe | apply still_query
      | apply still_commit | apply still_type_create | apply still_cart].
  all: try (match goal with |- still (if ?b then _ else _) => destruct b; [apply still_ret|apply still_comm_new] end).
  - intros a x a' E. injection E as _ <-. reflexivity.
  - apply still_bind; [apply still_testany|]. intros [[rs f] w]. destruct (f =? 0); [apply still_abort|apply still_ret].
  - apply still_bind; [apply still_iprobe|]. intros [f w]. destruct (f =? 0); [apply still_abort|apply still_ret].
  - apply still_bind; [apply still_free|]. intros u. apply still_ret.
Qed.

#[local] Arguments pr_fresh {sd a cm k id h tag before p rest m a'}.
#[local] Arguments pr_req {sd a cm k id h tag before p rest m a'}.
#[local] Arguments pr_partner {sd a cm k id h tag before p rest m a'}.
#[local] Arguments pr_comm {sd a cm k id h tag before p rest m a'}.
#[local] Arguments pr_mem {sd a cm k id h tag before p rest m a'}.
#[local] Arguments pr_rest {sd a cm k id h tag before p rest m a'}.
#[local] Arguments qd_fresh {sd a cm k p a'}.
#[local] Arguments qd_req {sd a cm k p a'}.
#[local] Arguments qd_comm {sd a cm k p a'}.
#[local] Arguments qd_mem {sd a cm k p a'}.
#[local] Arguments qd_rest {sd a cm k p a'}.

(** *** Calls that move data *)
Definition steps (M : Z -> Z -> Prop) (m m' : mem) : Prop :=
  same_layout m m' /\ forall x, m' x = m x \/ exists y, M x y /\ m' x = m y.
Lemma steps_refl M m : steps M m m. Proof. split; [intros a; tauto|auto]. Qed.
Lemma steps_mono (M M' : Z -> Z -> Prop) m m' : (forall x y, M x y -> M' x y) -> steps M m m' -> steps M' m m'.
Proof. intros H (L & F). split; auto. intros x. destruct (F x) as [?|(y & A & B)]; eauto. Qed.
Lemma steps_trans (M N : Z -> Z -> Prop) m m1 m2 : steps M m m1 -> steps N m1 m2 ->
  steps (fun x y => M x y \/ N x y \/ exists z, N x z /\ M z y) m m2.
Proof.
  intros (L & F) (L' & G). split; [intros a; rewrite (L a); apply L'|]. intros x. destruct (G x) as [E|(z & Nz & E)]; rewrite E.
  - destruct (F x) as [?|(y & A & B)]; eauto 6.
  - right. destruct (F z) as [?|(y & A & B)]; [exists z; auto|]. exists y. split; auto. right. right. eauto.
Qed.
Lemma flows_steps (W R : Z -> Prop) m m' : flows W R m m' -> steps (fun x y => W x /\ R y) m m'.
Proof. intros (L & F). split; auto. intros x. destruct (F x) as [?|(A & y & B & C)]; eauto. Qed.

Section Calls.
Variable c : cfg.
Lemma xfer_steps a src n st dst k dt m : xfer_res c a src n st dst k dt = Ok m -> steps (carries c a src st dst k dt) (a_mem a) m.
Proof.
  unfold xfer_res. destruct (type_at c a st) as [t|] eqn:E1; [|discriminate]. destruct (type_at c a dt) as [t'|] eqn:E2; [|discriminate].
  intros E. apply copy_flow, flows_steps in E. revert E. apply steps_mono. intros x y (A & B). exists t, t'. auto.
Qed.
Lemma isend_steps a b n ty d g cm h a' : inv a -> s_isend c b n ty d g cm a = Ret h a' ->
  steps (fun x y => d = 0 /\ exists kk, comm_at a cm = Some kk /\ send_moves c a kk b ty g x y) (a_mem a) (a_mem a').
Proof.
  intros I E. destruct (isend_inv _ _ _ _ _ _ _ _ _ I E) as [(_ & Ad)|(-> & k & Ek & [(bf & p & e & m & Ea & X & P)|(_ & Q)])].
  - destruct Ad as (_ & _ & _ & _ & -> & _). apply steps_refl.
  - rewrite (pr_mem P). apply xfer_steps in X. revert X. apply steps_mono. intros x y C. split; auto. exists k. split; auto. exists bf, p, e. auto.
  - rewrite (qd_mem Q). apply steps_refl.
Qed.
Lemma irecv_steps a b n ty so g cm h a' : inv a -> s_irecv c b n ty so g cm a = Ret h a' ->
  steps (fun x y => (so = 0 \/ so = MPI_ANY_SOURCE) /\ exists kk, comm_at a cm = Some kk /\ recv_moves c a kk b n ty g x y) (a_mem a) (a_mem a').
Proof.
  intros I E. destruct (irecv_inv _ _ _ _ _ _ _ _ _ I E) as [(_ & Ad)|(S & k & Ek & [(bf & p & e & m & Ea & X & P)|(_ & Q)])].
  - destruct Ad as (_ & _ & _ & _ & -> & _). apply steps_refl.
  - rewrite (pr_mem P). apply xfer_steps in X. revert X. apply steps_mono. intros x y C. split; auto. exists k. split; auto. exists bf, p, e. auto.
  - rewrite (qd_mem Q). apply steps_refl.
Qed.
(** A receive makes no datatypes, and touches its communicator only by queueing itself or taking a send. *)
Lemma irecv_types a b n ty so g cm h a' x t : inv a -> s_irecv c b n ty so g cm a = Ret h a' -> type_at c a' x = Some t -> type_at c a x = Some t.
Proof.
  intros I E. unfold type_at. destruct (x <? 0); [auto|]. destruct (irecv_inv _ _ _ _ _ _ _ _ _ I E) as [(_ & Ad)|(S & k & Ek & [(bf & p & e & m & Ea & X & P)|(_ & Q)])].
  - destruct Ad as (_ & _ & O & R & _). destruct (Z.eq_dec x h) as [->|N]; [rewrite O; discriminate|rewrite (R x N); auto].
  - pose proof (pr_req P) as A. pose proof (pr_partner P) as B. pose proof (pr_comm P) as C. unfold req_at, comm_at in *.
    destruct (Z.eq_dec x h) as [->|N1]; [destruct (a_obj a' h) as [[]|]; discriminate|].
    destruct (Z.eq_dec x cm) as [->|N2]; [destruct (a_obj a' cm) as [[]|]; discriminate|].
    destruct (Z.eq_dec x (p_req p)) as [->|N3]; [destruct (a_obj a' (p_req p)) as [[]|]; discriminate|].
    rewrite (pr_rest P x N1 N2 N3). auto.
  - pose proof (qd_req Q) as A. pose proof (qd_comm Q) as C. unfold req_at, comm_at in *.
    destruct (Z.eq_dec x cm) as [->|N2]; [destruct (a_obj a' cm) as [[]|]; discriminate|].
    destruct (Z.eq_dec x h) as [->|N1]; [cbn in A; destruct (a_obj a' h) as [[]|]; discriminate|].
    rewrite (qd_rest Q x N1 N2). auto.
Qed.
Lemma irecv_comm a b n ty so g cm h a' k1 : inv a -> s_irecv c b n ty so g cm a = Ret h a' -> comm_at a' cm = Some k1 ->
  exists k, comm_at a cm = Some k /\ (k_recvs k1 = k_recvs k \/ k1 = set_line Rcv k (k_recvs k ++ [mkPend (a_clock a) h b n ty g])).
Proof.
  intros I E. destruct (irecv_inv _ _ _ _ _ _ _ _ _ I E) as [(_ & Ad)|(S & k & Ek & [(bf & p & e & m & Ea & X & P)|(_ & Q)])].
  - destruct Ad as (_ & _ & O & R & _). unfold comm_at. destruct (Z.eq_dec cm h) as [->|N]; [rewrite O; discriminate|rewrite (R cm N)]. eauto.
  - rewrite (pr_comm P). intros Y. injection Y as <-. exists k. auto.
  - rewrite (qd_comm Q). intros Y. injection Y as <-. exists k. auto.
Qed.
Lemma earliest_recvs k k1 g bf p e : k_recvs k1 = k_recvs k -> earliest Snd g k1 bf p e -> earliest Snd g k bf p e.
Proof. intros R (A & B & C). unfold earliest. cbn [line other] in *. rewrite <- R. auto. Qed.

Lemma sendrecv_steps a sb sn sty d sg rb rn rt so rg cm st w a' : inv a -> s_sendrecv c sb sn sty d sg rb rn rt so rg cm a = Ret w a' ->
  steps (moves c a (KSendrecv sb sn sty d sg rb rn rt so rg cm st)) (a_mem a) (a_mem a').
Proof.
  intros I. unfold s_sendrecv, s_send, sbind. destruct (s_irecv c rb rn rt so rg cm a) as [h a1| |] eqn:E; try discriminate.
  destruct (s_isend c sb sn sty d sg cm a1) as [h2 a2| |] eqn:E2; try discriminate.
  destruct (s_wait wait_msg h2 a2) as [[r2 w2] a3| |] eqn:F; try discriminate. cbn [sret].
  destruct (s_wait wait_msg h a3) as [[r w'] a4| |] eqn:G; try discriminate. intros X. injection X as _ <-.
  rewrite (still_wait _ _ _ _ _ G), (still_wait _ _ _ _ _ F).
  pose proof (irecv_keeps _ _ _ _ _ _ _ _ _ _ I E) as I1.
  pose proof (irecv_steps _ _ _ _ _ _ _ _ _ I E) as S1. pose proof (isend_steps _ _ _ _ _ _ _ _ _ I1 E2) as S2.
  assert (T : forall k b1 t1 g1 x y, send_moves c a1 k b1 t1 g1 x y -> send_moves c a k b1 t1 g1 x y).
  { intros k b1 t1 g1 x y (bf & p & e & Ea & t & t' & A & B & C). exists bf, p, e. split; auto. exists t, t'.
    split; [exact (irecv_types _ _ _ _ _ _ _ _ _ _ _ I E A)|]. split; [exact (irecv_types _ _ _ _ _ _ _ _ _ _ _ I E B)|exact C]. }
  assert (U : forall x y k1, comm_at a1 cm = Some k1 -> send_moves c a1 k1 sb sty sg x y -> exists kk, comm_at a cm = Some kk /\
    (send_moves c a kk sb sty sg x y \/
        exists own, p_buf own = rb /\ p_count own = rn /\ p_type own = rt /\ p_tag own = rg /\
          send_moves c a (set_line Rcv kk (k_recvs kk ++ [own])) sb sty sg x y)).
  { intros x y k1 Ek M. destruct (irecv_comm _ _ _ _ _ _ _ _ _ _ I E Ek) as (k & Ek0 & [Rk| ->]); exists k; (split; [exact Ek0|]).
    - left. apply T. destruct M as (bf & p & e & Ea & C). exists bf, p, e. split; [exact (earliest_recvs _ _ _ _ _ _ Rk Ea)|exact C].
    - right. exists (mkPend (a_clock a) h rb rn rt rg). do 4 (split; [reflexivity|]). apply T. exact M. }
  refine (steps_mono _ _ _ _ _ (steps_trans _ _ _ _ _ S1 S2)). clear S1 S2. cbn [moves]. intros x y [(So & k & Ek & M)|[(D & k1 & Ek1 & M)|(z & (D & k1 & Ek1 & M) & (So & k & Ek & M'))]].
  - exists k. split; auto.
  - destruct (U _ _ _ Ek1 M) as (k & Ek & M'). exists k. split; auto.
  - destruct (U _ _ _ Ek1 M) as (k' & Ek' & M2). assert (k' = k) by congruence. subst k'. exists k. split; auto. right. right. exists z. auto.
Qed.
Lemma moves_steps {A} (f : astate -> res (mem * A)) M a x a' :
  s_moves f a = Ret x a' -> (forall m x, f a = Ok (m, x) -> steps M (a_mem a) m) -> steps M (a_mem a) (a_mem a').
Proof.
  unfold s_moves. destruct (f a) as [[m y]| | | |]; try discriminate. intros E H. injection E as _ <-. apply (H m y eq_refl).
Qed.
Lemma spec_steps tj k a Q a' : inv a -> spec c tj k a = Ret Q a' -> (forall m, k <> KUser m) -> steps (moves c a k) (a_mem a) (a_mem a').
Proof.
  intros I E NU. assert (D : silent k -> steps (moves c a k) (a_mem a) (a_mem a')).
  { intros S. rewrite (silent_still c tj k S _ _ _ E). apply steps_refl. }
  destruct k; cbn [silent] in D; try (exact (D Logic.I)); clear D; try (exfalso; eapply NU; reflexivity); cbn [spec] in E; apply smap_inv in E; destruct E as (x & E & _).
  - cbn [moves]. exact (isend_steps _ _ _ _ _ _ _ _ _ I E).
  - cbn [moves]. exact (irecv_steps _ _ _ _ _ _ _ _ _ I E).
  - cbn [moves]. unfold s_irsend, sbind in E. destruct (s_isend c _ _ _ _ _ _ a) as [h a1| |] eqn:E1; try discriminate.
    destruct (complete a1 h); [|discriminate]. injection E as _ <-. exact (isend_steps _ _ _ _ _ _ _ _ _ I E1).
  - cbn [moves]. unfold s_send, sbind in E. destruct (s_isend c _ _ _ _ _ _ a) as [h a1| |] eqn:E1; try discriminate.
    destruct (s_wait _ h a1) as [[r w] a2| |] eqn:F; try discriminate. injection E as _ <-. rewrite (still_wait _ _ _ _ _ F). exact (isend_steps _ _ _ _ _ _ _ _ _ I E1).
  - cbn [moves]. unfold s_send, sbind in E. destruct (s_isend c _ _ _ _ _ _ a) as [h a1| |] eqn:E1; try discriminate.
    destruct (s_wait _ h a1) as [[r w] a2| |] eqn:F; try discriminate. injection E as _ <-. rewrite (still_wait _ _ _ _ _ F). exact (isend_steps _ _ _ _ _ _ _ _ _ I E1).
  - cbn [moves]. unfold s_send, sbind in E. destruct (s_isend c _ _ _ _ _ _ a) as [h a1| |] eqn:E1; try discriminate.
    destruct (s_wait _ h a1) as [[r w] a2| |] eqn:F; try discriminate. injection E as _ <-. rewrite (still_wait _ _ _ _ _ F). exact (isend_steps _ _ _ _ _ _ _ _ _ I E1).
  - cbn [moves]. unfold s_recv, sbind in E. destruct (s_irecv c _ _ _ _ _ _ a) as [h a1| |] eqn:E1; try discriminate.
    destruct (s_wait _ h a1) as [[r w] a2| |] eqn:F; try discriminate. injection E as _ <-. rewrite (still_wait _ _ _ _ _ F). exact (irecv_steps _ _ _ _ _ _ _ _ _ I E1).
  - exact (sendrecv_steps _ _ _ _ _ _ _ _ _ _ _ _ _ _ _ I E).
  - refine (moves_steps _ _ _ _ _ E _). intros m p. unfold pack_res. destruct (type_at c a _) as [t|] eqn:Et; [|discriminate].
    intros F. apply pack_flow, flows_steps in F. revert F. apply steps_mono. intros u v (A & B). cbn [moves]. eauto.
  - refine (moves_steps _ _ _ _ _ E _). intros m p. unfold unpack_res. destruct (type_at c a _) as [t|] eqn:Et; [|discriminate].
    intros F. apply unpack_flow, flows_steps in F. revert F. apply steps_mono. intros u v (A & B). cbn [moves]. eauto.
  - refine (moves_steps _ _ _ _ _ E _). intros m p. unfold coll_res. destruct (coll_plan c a _) as [[|w|src n st dst q dt]|] eqn:Ep; cbn [plan_res bind]; try discriminate.
    + intros F. injection F as <- _. apply steps_refl.
    + destruct (xfer_res _ _ _ _ _ _ _ _) as [m0| | | |] eqn:X; cbn [bind]; try discriminate. intros F. injection F as <- _.
      apply xfer_steps in X. revert X. apply steps_mono. intros u v C. cbn [moves]. exists src, n, st, dst, q, dt. auto.
Qed.
End Calls.

(** *** Reachable states *)
Section Reach.
Variable c : cfg.
Variable tj : Z -> tjunk.
Lemma C88_lemma s a k o s' a' : reach c tj s a -> does c tj s a k o s' a' -> (forall m, k <> KUser m) ->
  same_layout (s_mem s) (s_mem s') /\ forall x, s_mem s' x = s_mem s x \/ exists y, moves c a k x y /\ s_mem s' x = s_mem s y.
Proof.
  intros R (L & _ & R' & Q & E & _) N. pose proof (spec_steps c tj k a Q a' (reach_inv _ _ R) E N) as S.
  rewrite (ab_mem (reach_abs _ _ R)), (ab_mem (reach_abs _ _ R')). exact S.
Qed.
Lemma C88_silent_lemma s a k o s' a' : reach c tj s a -> does c tj s a k o s' a' -> silent k -> s_mem s' = s_mem s.
Proof.
  intros R (L & _ & R' & Q & E & _) N. rewrite (ab_mem (reach_abs _ _ R)), (ab_mem (reach_abs _ _ R')). exact (silent_still c tj k N _ _ _ E).
Qed.
Lemma C88_run_lemma x : forall ks s a t, reach c tj s a ->
  all_along c tj (fun k a => legal c tj k a /\ no_store k /\ ~ may_write c a k x) ks a -> snd (FlowSpec.run c ks s) = Ok t -> s_mem t x = s_mem s x.
Proof.
  induction ks as [|k ks IH]; intros s a t R H E; cbn [FlowSpec.run all_along] in *; [injection E as ->; reflexivity|].
  destruct H as ((L & NS & NW) & H). destruct (exec c k s) as [[o s1]|w|n w|w|] eqn:Ex; try discriminate.
  destruct (ran _ _ _ _ _ R L Ex) as (a1 & D). pose proof D as (_ & _ & R1 & Q & Es & _). rewrite Es in H.
  destruct (FlowSpec.run c ks s1) as [os e] eqn:Er. cbn [snd] in E. specialize (IH s1 a1 t R1 H). rewrite Er in IH. rewrite (IH E).
  destruct (C88_lemma _ _ _ _ _ _ R D) as (_ & F); [intros m ->; exact NS|]. destruct (F x) as [?|(y & M & _)]; auto. exfalso. apply NW. exists y. exact M.
Qed.
End Reach.

(** *** The bytes of a message, as in CopySpec *)
Section Region.
Variable c : cfg.
Lemma C88_region_lemma cut t e buf n x : typed c t e -> 0 <= n -> cut = id \/ cut = to_s32 /\ offsets_fit n e (typemap t) ->
  (forall r, In r (layout c buf n e (typemap t)) -> 0 <= fst r /\ fst r + snd r <= TWO64) -> 0 <= x < TWO64 ->
  (in_message c cut t buf n x <-> exists r, In r (layout c buf n e (typemap t)) /\ inside r x).
Proof.
  intros (W & Ee) Hn Hc HR Hx. pose proof (wf_count _ _ W) as C. destruct (wf_pairs _ _ W) as (P1 & P2).
  pose proof (typemap_length t ltac:(lia)) as TL.
  assert (EL := elements_length n e (typemap t) Hn).
  assert (K : forall k, (k < length (elements n e (typemap t)))%nat -> exists p el len,
    nth_error (ts_pairs t) (Z.to_nat (Z.rem (Z.of_nat k) (ts_count t))) = Some p /\ nth_error (elements n e (typemap t)) k = Some el /\
    Simpletype_length c (tp_type p) = Ok len /\ len = esize c el /\ snd el = tp_disp p + Z.quot (Z.of_nat k) (ts_count t) * e).
  { intros k Hk. assert (T0 : (0 < length (typemap t))%nat) by nia.
    destruct (nth_elements n e (typemap t) k T0 Hn ltac:(nia)) as (u & U1 & U2).
    destruct (pair_at t _ u ltac:(lia) U1) as (p & A & B & D).
    destruct (quot_rem_nat k (length (typemap t)) T0) as (Q1 & Q2). rewrite TL in Q1, Q2.
    destruct (wf_known _ _ W u (nth_error_In _ _ U1)) as (len & SL).
    exists p, (fst u, snd u + Z.of_nat (k / length (typemap t)) * e), len. rewrite Q1, Q2. apply arr_get_at in A.
    split; [exact A|]. split; [exact U2|]. rewrite B. split; [exact SL|]. cbn [snd]. rewrite D. split; [|reflexivity].
    unfold esize. cbn [fst]. symmetry. apply length_bsize. exact SL. }
  assert (CUT : forall el, In el (elements n e (typemap t)) -> forall d q j, snd el = d + q * e ->
     to_u64 (buf + cut (d + q * to_u64 e) + j) = to_u64 (buf + snd el + j)).
  { intros el Hel d q j Es. destruct (to_u64_ex e) as (z & Ez). destruct Hc as [->|(-> & F)].
    - unfold id. rewrite Ez. apply (to_u64_cong _ _ (q * z)). rewrite Es. ring.
    - pose proof (s32_ext d q e) as S. rewrite to_s32_u64 in S. rewrite S, <- Es, to_s32_id by (apply F; exact Hel). reflexivity. }
  split.
  - intros (i & Hi & p & q & ex & len & j & N1 & N2 & Ex & SL & Hj & Eq).
    assert (q = p) by congruence. subst q. assert (ex = to_u64 e) by congruence. subst ex.
    destruct (K (Z.to_nat i)) as (p' & el & len' & A & B & D & F & G).
    { apply Nat2Z.inj_lt. rewrite EL, TL, Z2Nat.id by lia. lia. }
    rewrite Z2Nat.id in A, G by lia. assert (p' = p) by congruence. subst p'. assert (len' = len) by congruence. subst len'.
    exists (buf + snd el, esize c el). assert (HE : In el (elements n e (typemap t))) by (eapply nth_error_In; eauto).
    assert (IN : In (buf + snd el, esize c el) (layout c buf n e (typemap t))) by (unfold layout; apply (in_map (fun e => (buf + snd e, esize c e))); auto).
    split; [exact IN|]. destruct (HR _ IN) as (H1 & H2). cbn [fst snd] in *. rewrite (CUT el HE _ _ _ G) in Eq.
    rewrite !to_u64_id in Eq by lia. unfold inside. cbn [fst snd]. lia.
  - intros (r & IN & Ix). unfold layout in IN. apply in_map_iff in IN. destruct IN as (el & <- & Hel). unfold inside in Ix. cbn [fst snd] in Ix.
    destruct (In_nth_error _ _ Hel) as (k & Hk). destruct (K k) as (p & el' & len & A & B & D & F & G); [apply nth_error_Some; intros X; pose proof (eq_trans (eq_sym Hk) X); discriminate|].
    pose proof (eq_trans (eq_sym B) Hk) as X. injection X as ->. exists (Z.of_nat k). split; [split; [lia|]|].
    { assert (k < length (elements n e (typemap t)))%nat by (apply nth_error_Some; intros X; pose proof (eq_trans (eq_sym Hk) X); discriminate). nia. }
    exists p, p, (to_u64 e), len, (x - (buf + snd el)). do 4 (split; [auto|]). split; [lia|]. rewrite (CUT el Hel _ _ _ G). f_equal. lia.
Qed.
End Region.
