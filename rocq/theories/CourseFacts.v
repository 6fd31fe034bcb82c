(** Proofs for C108. *)
From Coq Require Import Permutation Sorted.
From Verif Require Import Base HandleSpec HandleExact TypeModel TypeSpec TypeFinal CopyModel CopySpec CopyProofs CopyFinal SysModel CollModel SysCalls SysSpec SysLog SysReach SysAbs
  SysFacts SysFacts2 SysFacts3 SysFacts4 SysFacts6 FirstFacts ExchangeSpec ExchangeFacts PairSpec PairFacts CourseSpec.

(** *** The rule for the first operations of a program. *)
Lemma pick_same f g w : (forall i, In i w -> f i = g i) -> pick f w = pick g w.
Proof.
  induction w as [|i w IH]; intros H; [reflexivity|]. cbn [pick]. rewrite (H i (or_introl eq_refl)), IH; [reflexivity|]. intros j I. apply H. right. exact I.
Qed.
Lemma nth_firstn {A} (l : list A) n i : (i < n)%nat -> nth_error (firstn n l) i = nth_error l i.
Proof. revert n i. induction l as [|x l IH]; intros [|n] [|i] H; cbn [firstn nth_error]; try lia; auto. apply IH. lia. Qed.
Lemma upon_first prog n : (n <= length prog)%nat -> forall m, (m <= n)%nat -> upon (firstn n prog) m = upon prog m.
Proof.
  intros L. induction m as [|m IH]; intros Hm; [reflexivity|]. rewrite !upon_S, IH by lia. unfold meet. rewrite nth_firstn by lia.
  destruct (nth_error prog m) as [x|]; [|reflexivity]. rewrite (pick_same (fits_at (firstn n prog) x) (fits_at prog x)); [reflexivity|].
  intros i I. unfold fits_at. rewrite nth_firstn; [reflexivity|]. pose proof (proj2 (ri_in _ _ _ _ i (ri_run prog m ltac:(lia))) (or_introl I)). lia.
Qed.
Lemma couples_first prog n : (n <= length prog)%nat -> couples (firstn n prog) = fst (upon prog n) /\ left_over (firstn n prog) = snd (upon prog n).
Proof.
  intros L. change (couples (firstn n prog)) with (fst (upon (firstn n prog) (length (firstn n prog)))). change (left_over (firstn n prog)) with (snd (upon (firstn n prog) (length (firstn n prog)))).
  rewrite firstn_length, Nat.min_l by exact L. rewrite (upon_first prog n L n) by lia. auto.
Qed.
Lemma met_spec prog n i : (n <= length prog)%nat -> has_met prog n i = true <-> exists j, together (fst (upon prog n)) i j.
Proof.
  intros L. unfold has_met. rewrite (proj1 (couples_first prog n L)), existsb_exists. split.
  - intros ([p q] & I & E). cbn [fst snd] in E. apply orb_true_iff in E. rewrite !Nat.eqb_eq in E. destruct E as [->| ->]; [exists q; left|exists p; right]; exact I.
  - intros (j & [I|I]); eexists; (split; [exact I|]); cbn [fst snd]; rewrite Nat.eqb_refl, ?orb_true_r; reflexivity.
Qed.
Lemma not_met prog n i : (n <= length prog)%nat -> (i < n)%nat -> has_met prog n i = false -> In i (snd (upon prog n)).
Proof.
  intros L Li H. destruct (proj1 (ri_in _ _ _ _ i (ri_run prog n L)) Li) as [I|M]; [exact I|]. apply met_spec in M; [congruence|exact L].
Qed.

(** *** Request variables. *)
Lemma forget_at : forall hs i h, nth_error hs i = Some h -> nth_error (forget i hs) i = Some MPI_REQUEST_NULL.
Proof. induction hs as [|x hs IH]; intros [|i] h E; try discriminate; [reflexivity|]. cbn [forget nth_error] in *. eauto. Qed.
Lemma forget_other : forall hs i j, j <> i -> nth_error (forget i hs) j = nth_error hs j.
Proof. induction hs as [|x hs IH]; intros [|i] [|j] N; try reflexivity; [congruence|]. cbn [forget nth_error]. apply IH. congruence. Qed.
Lemma forget_length : forall hs i, length (forget i hs) = length hs.
Proof. induction hs as [|x hs IH]; intros [|i]; cbn [forget length]; auto. Qed.
Lemma forget_null : forall hs i, nth_error hs i = Some MPI_REQUEST_NULL -> forget i hs = hs.
Proof. induction hs as [|x hs IH]; intros [|i] E; try discriminate; [injection E as ->; reflexivity|]. cbn [forget]. f_equal. auto. Qed.
Lemma forget_mid hs h t : forget (length hs) (hs ++ h :: t) = hs ++ MPI_REQUEST_NULL :: t.
Proof. induction hs as [|x hs IH]; [reflexivity|]. cbn [length app forget]. f_equal. exact IH. Qed.
Lemma forget_last hs h : forget (length hs) (hs ++ [h]) = hs ++ [MPI_REQUEST_NULL].
Proof. induction hs as [|x hs IH]; [reflexivity|]. cbn [length app forget]. f_equal. exact IH. Qed.
Lemma waits_forget prog hs cm sd i : forall u Q, (forall j, In j u -> j <> i) -> Forall2 (waits_for prog hs cm sd) u Q -> Forall2 (waits_for prog (forget i hs) cm sd) u Q.
Proof.
  intros u Q N F. induction F as [|j p u Q W F IH]; constructor.
  - destruct W as (x & W1 & W2 & W3 & W4 & W5). exists x. split; [exact W1|]. split; [exact W2|]. split; [exact W3|]. split; [|exact W5].
    rewrite forget_other; [exact W4|]. apply N. left. reflexivity.
  - apply IH. intros k I. apply N. right. exact I.
Qed.
Lemma var_at hs i h : nth_error hs i = Some h -> var hs i = h.
Proof. intros E. unfold var. apply nth_error_nth. exact E. Qed.
Lemma var_some hs i : (i < length hs)%nat -> nth_error hs i = Some (var hs i).
Proof. intros L. apply nth_error_nth'. exact L. Qed.
Lemma var_forget_other hs i j : j <> i -> var (forget i hs) j = var hs j.
Proof.
  intros N. unfold var. destruct (nth_error hs j) as [h|] eqn:E.
  - rewrite (nth_error_nth _ _ _ E). apply nth_error_nth. rewrite forget_other; auto.
  - apply nth_error_None in E. rewrite !nth_overflow; auto. rewrite forget_length. exact E.
Qed.
Lemma var_forget hs i : var (forget i hs) i = MPI_REQUEST_NULL.
Proof.
  unfold var. destruct (nth_error hs i) as [h|] eqn:E; [apply nth_error_nth; eapply forget_at; eauto|].
  apply nth_error_None in E. apply nth_overflow. rewrite forget_length. exact E.
Qed.
Lemma var_forgets_other : forall l hs j, ~ In j l -> var (forgets l hs) j = var hs j.
Proof.
  induction l as [|i l IH]; intros hs j N; [reflexivity|]. cbn [forgets]. rewrite IH by (intros I; apply N; right; exact I).
  apply var_forget_other. intros ->. apply N. left. reflexivity.
Qed.
Lemma var_forgets : forall l hs j, In j l \/ var hs j = MPI_REQUEST_NULL -> var (forgets l hs) j = MPI_REQUEST_NULL.
Proof.
  induction l as [|i l IH]; intros hs j [I|E]; [destruct I|exact E| |]; cbn [forgets]; apply IH.
  - destruct I as [<-|I]; [right; apply var_forget|left; exact I].
  - right. destruct (Nat.eq_dec j i) as [->|N]; [apply var_forget|rewrite var_forget_other; auto].
Qed.
Lemma forgets_length : forall l hs, length (forgets l hs) = length hs.
Proof. induction l as [|i l IH]; intros hs; [reflexivity|]. cbn [forgets]. rewrite IH. apply forget_length. Qed.

Section Run.
Variable c : cfg.
Variable tj : Z -> tjunk.
Notation reach := (reach c tj).
Notation does := (does c tj).
Variables (a0 : astate) (m0 : mem) (prog : list act).
Hypothesis CO : cfg_ok c.
Hypothesis MO : mem_ok m0.
Hypothesis OK : acts_ok c a0 m0 prog.
Hypothesis N0 : a_obj a0 MPI_REQUEST_NULL = None.
Hypothesis HL : Z.of_nat (length prog) <= handles_left a0.
Hypothesis HI : a_items a0 + Z.of_nat (length prog) <= INT_MAX.
Hypothesis LM : Z.of_nat (length prog) <= INT_MAX.
Variable cms : list Z.
Hypothesis CM : forall cm, In cm cms -> exists u, comm_at a0 cm = Some (mkAcomm u [] []).
Variable aa : astate.
Hypothesis AT : forall h t, type_at c aa h = Some t -> type_at c a0 h = Some t.
Hypothesis AM : same_domain (a_mem aa) m0.
Notation J := (J c tj a0 m0 prog).
Notation ps n := (fst (upon prog n)).
Notation w n := (snd (upon prog n)).
Notation goes := (goes c tj prog).

Lemma mem_same s s' a a' : reach s a -> reach s' a' -> a_mem a' = a_mem a -> s_mem s' = s_mem s.
Proof. intros R R' E. rewrite (ab_mem (reach_abs _ _ R)), (ab_mem (reach_abs _ _ R')). exact E. Qed.

(** The request of an operation that has met its partner: MPI_Test completes it. *)
Lemma j_test n dn hs s a P i h : J n (ps n) (w n) dn hs s a P -> (n <= length prog)%nat -> nth_error hs i = Some h -> has_met prog n i = true ->
  exists v a', s_test h a = Ret (MPI_REQUEST_NULL, 1, v) a' /\ legal_req h a /\ a_mem a' = a_mem a /\
    tells_or_null prog dn i v /\
    (forall s', reach s' a' -> J n (ps n) (w n) (i :: dn) (forget i hs) s' a' P).
Proof.
  intros H L Hi M. pose proof (j_reach _ _ _ _ _ _ _ _ _ _ _ _ _ H) as R. pose proof (reach_inv _ _ R) as IV.
  apply met_spec in M; [|exact L]. destruct M as (j & M). pose proof (ri_run prog n L) as HR.
  assert (Ni : ~ In i (w n)) by (intros I; exact (ri_alone _ _ _ _ _ _ HR I M)).
  assert (Li : (i < n)%nat) by exact (proj1 (ri_lt _ _ _ _ _ _ HR M)).
  destruct (in_dec Nat.eq_dec i dn) as [D|D].
  - pose proof (j_null _ _ _ _ _ _ _ _ _ _ _ _ _ H i h Hi D) as ->. exists (Write (Some MPI_ANY_SOURCE) (Some MPI_ANY_TAG)), a.
    split; [reflexivity|]. split; [left; reflexivity|]. split; [reflexivity|]. split; [left; auto|]. intros s' R'. rewrite (forget_null _ _ Hi).
    pose proof (mem_same _ _ _ _ R R' eq_refl) as Em.
    destruct H. constructor; rewrite ?Em; auto.
    + intros i0 h0 Hi0 Di0. apply j_req; auto. intros I. apply Di0. right. exact I.
    + intros i0 h0 Hi0 [<-|Di0]; eauto.
    + intros i0 [<-|Di0]; auto.
    + intros i0 j0 h0 A B Di0. apply (j_inj i0 j0 h0 A B). intros I. apply Di0. right. exact I.
  - destruct (j_req _ _ _ _ _ _ _ _ _ _ _ _ _ H i h Hi D) as (H1 & H2 & q & Q & SQ).
    assert (exists v, report q = Some v /\ tells prog i v) as (v & Rq & T).
    { destruct SQ as [[I _]|[(k & I & Rq)|(k & y & I & Y & Rq)]]; [contradiction| |]; (eexists; split; [exact Rq|]); [left; exists k|right; exists k, y];
        (split; [apply (upon_keeps prog n); auto|]); auto. }
    exists v, (freed_at a h). split; [exact (test_done _ _ _ _ IV Q Rq)|]. split; [right; eauto|]. split; [exact (proj1 (proj2 (proj2 (freed_released a h))))|]. split; [right; auto|]. intros s' R'.
    destruct (freed_released a h) as (F1 & F2 & F3 & _ & _). pose proof (mem_same _ _ _ _ R R' F3) as Em.
    assert (Ih : In h hs) by exact (nth_error_In _ _ Hi).
    assert (Ff : forall x, In x hs -> x <> h -> In x (forget i hs)).
    { intros x I Nx. apply In_nth_error in I. destruct I as (k & I). assert (Nk : k <> i) by congruence. rewrite <- (forget_other hs i k Nk) in I. exact (nth_error_In _ _ I). }
    constructor.
    + exact R'.
    + intros cm k K. pose proof (cm_not _ _ _ _ _ N0 _ _ _ _ _ _ _ _ H cm k K) as Nc. unfold comm_at. rewrite F2; [exact (j_comm _ _ _ _ _ _ _ _ _ _ _ _ _ H cm k K)|]. intros ->. contradiction.
    + intros cm sd. apply waits_forget; [|exact (j_waits _ _ _ _ _ _ _ _ _ _ _ _ _ H cm sd)]. intros k I ->. apply filter_In in I. apply Ni. apply I.
    + rewrite Em. exact (j_dom _ _ _ _ _ _ _ _ _ _ _ _ _ H).
    + intros k h' Hk Dk. assert (Nk : k <> i) by (intros ->; apply Dk; left; reflexivity). assert (Dk' : ~ In k dn) by (intros I; apply Dk; right; exact I).
      rewrite forget_other in Hk by exact Nk. destruct (j_req _ _ _ _ _ _ _ _ _ _ _ _ _ H k h' Hk Dk') as (X1 & X2 & q' & Q' & SQ'). split; [exact X1|]. split; [exact X2|].
      exists q'. split; [|exact SQ']. unfold req_at in *. rewrite F2; [exact Q'|]. intros ->. apply Nk. exact (j_inj _ _ _ _ _ _ _ _ _ _ _ _ _ H k i h Hk Hi Dk').
    + intros k h' Hk Dk. destruct (Nat.eq_dec k i) as [->|Nk]; [rewrite (forget_at _ _ _ Hi) in Hk; congruence|]. rewrite forget_other in Hk by exact Nk.
      destruct Dk as [E|Dk]; [congruence|]. exact (j_null _ _ _ _ _ _ _ _ _ _ _ _ _ H k h' Hk Dk).
    + intros k [<-|Dk]; [auto|]. exact (j_done _ _ _ _ _ _ _ _ _ _ _ _ _ H k Dk).
    + intros k l x Hk Hl Dk. assert (Nk : k <> i) by (intros ->; apply Dk; left; reflexivity). assert (Dk' : ~ In k dn) by (intros I; apply Dk; right; exact I).
      rewrite forget_other in Hk by exact Nk. destruct (Nat.eq_dec l i) as [->|Nl].
      * rewrite (forget_at _ _ _ Hi) in Hl. injection Hl as <-. destruct (j_req _ _ _ _ _ _ _ _ _ _ _ _ _ H k _ Hk Dk') as (X & _). unfold MPI_REQUEST_NULL in X. lia.
      * rewrite forget_other in Hl by exact Nl. exact (j_inj _ _ _ _ _ _ _ _ _ _ _ _ _ H k l x Hk Hl Dk').
    + intros x Nx Cx. destruct (Z.eq_dec x h) as [->|Nh]; [congruence|]. rewrite F2 by exact Nh. apply (j_rest _ _ _ _ _ _ _ _ _ _ _ _ _ H); [|exact Cx]. intros I. apply Nx. auto.
    + rewrite forget_length. exact (j_len _ _ _ _ _ _ _ _ _ _ _ _ _ H).
    + pose proof (j_left _ _ _ _ _ _ _ _ _ _ _ _ _ H). unfold handles_left, freed_at in *. cbn [a_freed a_top set_obj with_handles length]. lia.
    + exact (j_items _ _ _ _ _ _ _ _ _ _ _ _ _ H).
Qed.
(** An operation that waits. *)
Lemma j_pending n dn hs s a P i h : J n (ps n) (w n) dn hs s a P -> (n <= length prog)%nat -> nth_error hs i = Some h -> In i (w n) -> exists q, req_at a h = Some q /\ report q = None.
Proof.
  intros H L Hi I. assert (D : ~ In i dn) by (intros D; exact (proj2 (j_done _ _ _ _ _ _ _ _ _ _ _ _ _ H i D) I)).
  destruct (j_req _ _ _ _ _ _ _ _ _ _ _ _ _ H i h Hi D) as (_ & _ & q & Q & SQ). exists q. split; [exact Q|].
  pose proof (ri_run prog n L) as HR. destruct SQ as [[_ Rq]|[(k & M & _)|(k & y & M & _)]]; [exact Rq| |]; destruct (ri_alone _ _ _ _ i k HR I); [left|right]; exact M.
Qed.
Lemma post_spec x s a h s' a' : does s a (act_call x) (VInt h) s' a' ->
  match x_side x with
  | Snd => s_isend c (x_buf x) (x_count x) (x_type x) 0 (x_tag x) (x_comm x) a = Ret h a'
  | Rcv => s_irecv c (x_buf x) (x_count x) (x_type x) (x_src x) (x_tag x) (x_comm x) a = Ret h a'
  end.
Proof.
  intros (_ & _ & _ & Q & E & O). unfold act_call in E. destruct (x_side x); cbn [spec] in E; unfold smap, sbind in E.
  - destruct (s_isend c _ _ _ _ _ _ a) as [h' b| |]; try discriminate. injection E as <- <-. unfold is in O. injection O as ->. reflexivity.
  - destruct (s_irecv c _ _ _ _ _ _ a) as [h' b| |]; try discriminate. injection E as <- <-. unfold is in O. injection O as ->. reflexivity.
Qed.

Lemma J_ext n p0 w0 dn dn' hs s s' a P : J n p0 w0 dn hs s a P -> reach s' a -> (forall i, In i dn <-> In i dn') -> J n p0 w0 dn' hs s' a P.
Proof.
  intros H R' E. pose proof (mem_same _ _ _ _ (j_reach _ _ _ _ _ _ _ _ _ _ _ _ _ H) R' eq_refl) as Em. destruct H. constructor; rewrite ?Em; auto.
  - intros i h Hi D. apply j_req; auto. rewrite E. exact D.
  - intros i h Hi D. apply (j_null i h Hi). apply E. exact D.
  - intros i D. apply j_done. apply E. exact D.
  - intros i j h A B D. apply (j_inj i j h A B). rewrite E. exact D.
Qed.
Lemma j_var n dn hs s a P i : J n (ps n) (w n) dn hs s a P -> (i < n)%nat -> nth_error hs i = Some (var hs i).
Proof. intros H L. apply var_some. rewrite (j_len _ _ _ _ _ _ _ _ _ _ _ _ _ H). exact L. Qed.
(** A test, whether the operation has met its partner or not. *)
Lemma j_one n dn hs s a P i : J n (ps n) (w n) dn hs s a P -> (n <= length prog)%nat -> (i < n)%nat ->
  legal_req (var hs i) a /\
  if has_met prog n i
  then exists v a', s_test (var hs i) a = Ret (MPI_REQUEST_NULL, 1, v) a' /\ a_mem a' = a_mem a /\ tells_or_null prog dn i v /\ (forall s', reach s' a' -> J n (ps n) (w n) (i :: dn) (forget i hs) s' a' P)
  else s_test (var hs i) a = Ret (var hs i, 0, NoWrite) a /\ var hs i <> MPI_REQUEST_NULL.
Proof.
  intros H L Li. pose proof (j_var _ _ _ _ _ _ _ H Li) as Hi. destruct (has_met prog n i) eqn:M.
  - destruct (j_test n dn hs s a P i _ H L Hi M) as (v & a1 & T & Lq & Am & Tl & K). split; [exact Lq|]. exists v, a1. auto.
  - destruct (j_pending n dn hs s a P i _ H L Hi (not_met prog n i L Li M)) as (q & Q & Rq). pose proof (reach_inv _ _ (j_reach _ _ _ _ _ _ _ _ _ _ _ _ _ H)) as IV.
    split; [right; eauto|]. split; [exact (test_pending _ _ _ IV Q Rq)|]. pose proof (req_pos _ _ _ IV Q) as Z0. apply Z.eqb_neq in Z0. exact Z0.
Qed.
(** The state after a wait is reached. *)
Lemma reach_after s a h v a' : reach s a -> legal_req h a -> s_test h a = Ret (MPI_REQUEST_NULL, 1, v) a' -> exists s', reach s' a'.
Proof.
  intros R Lq T. destruct (run (tj := tj) (KWait h SIgnore) s a (fun o => exists st', wrote SIgnore v st' /\ o = VWait MPI_REQUEST_NULL st') a' R) as (o & s' & D & _).
  - split; [exact Lq|discriminate].
  - cbn [spec]. unfold smap, s_wait, sbind. rewrite T. reflexivity.
  - exists s'. apply D.
Qed.
Definition flag_of (n i : nat) : Z := if has_met prog n i then 1 else 0.
Lemma tests_run n : (n <= length prog)%nat -> forall l dn hs s a P, J n (ps n) (w n) dn hs s a P -> NoDup l -> (forall i, In i l -> (i < n)%nat) ->
  let E := filter (has_met prog n) l in
  exists ws a', s_tests (length l) (map (var hs) l) a = Ret (map (var (forgets E hs)) l, map (flag_of n) l, ws) a' /\
    a_mem a' = a_mem a /\ Forall2 (tells_if_met prog n dn) l ws /\ forall s', reach s' a' -> J n (ps n) (w n) (rev E ++ dn) (forgets E hs) s' a' P.
Proof.
  intros L. induction l as [|i l IH]; intros dn hs s a P H ND Lt.
  - exists [], a. split; [reflexivity|]. split; [reflexivity|]. split; [constructor|]. intros s' R'. eapply J_ext; eauto. reflexivity.
  - inversion ND as [|? ? Ni ND']; subst. destruct (j_one n dn hs s a P i H L (Lt i (or_introl eq_refl))) as [Lq T].
    cbn [filter length map s_tests]. unfold sbind. unfold flag_of at 1. unfold tells_if_met. destruct (has_met prog n i) eqn:M.
    + destruct T as (v & a1 & T & Am & Tl & K). destruct (reach_after _ _ _ _ _ (j_reach _ _ _ _ _ _ _ _ _ _ _ _ _ H) Lq T) as (s1 & R1). pose proof (K s1 R1) as H1.
      destruct (IH (i :: dn) (forget i hs) s1 a1 P H1 ND' (fun j I => Lt j (or_intror I))) as (ws & a' & E1 & Am1 & F1 & K1).
      cbn [forgets rev]. rewrite T. assert (Em : map (var hs) l = map (var (forget i hs)) l).
      { apply map_ext_in. intros j I. symmetry. apply var_forget_other. intros ->. contradiction. }
      rewrite Em, E1. exists (v :: ws), a'. split; [|split; [congruence|split]].
      * unfold sret. rewrite var_forgets by (right; apply var_forget). reflexivity.
      * constructor; [rewrite M; exact Tl|]. assert (Nj : forall j, In j l -> j <> i) by (intros j I ->; contradiction). clear - F1 Nj. induction F1 as [|j v l ws T F1 IH]; constructor; [|apply IH; intros; apply Nj; right; assumption].
        unfold tells_if_met in T. destruct (has_met prog n j); [|exact T]. pose proof (Nj j (or_introl eq_refl)) as N. destruct T as [[[D|D] T]|[D T]]; [congruence|left; auto|right; split; [intros I; apply D; right; exact I|exact T]].
      * intros s' R'. rewrite <- app_assoc. exact (K1 s' R').
    + destruct T as [T Nz]. destruct (IH dn hs s a P H ND' (fun j I => Lt j (or_intror I))) as (ws & a' & E1 & Am1 & F1 & K1). rewrite T, E1. exists (NoWrite :: ws), a'. split; [|split; [congruence|split]].
      * unfold sret. rewrite var_forgets_other; [reflexivity|]. intros I. apply filter_In in I. apply Ni. apply I.
      * constructor; [rewrite M; reflexivity|exact F1].
      * exact K1.
Qed.
Lemma waits_run : forall k rs a rs' fs ws a', s_tests k rs a = Ret (rs', fs, ws) a' ->
  s_waitall k rs a = if forallb (fun f => negb (f =? 0)) fs then Ret (rs', ws) a' else SAbort "MPI_Waitall: request not complete, deadlock".
Proof.
  induction k as [|k IH]; intros [|r rs] a rs' fs ws a' E; cbn [s_tests s_waitall] in *; try (injection E as <- <- <- <-; reflexivity).
  unfold sbind in *. unfold s_wait, sbind. destruct (s_test r a) as [[[r1 f] v] a1| |]; try discriminate.
  destruct (s_tests k rs a1) as [[[rs1 fs1] ws1] a2| |] eqn:E1; try discriminate. injection E as <- <- <- <-. cbn [forallb]. destruct (f =? 0); [reflexivity|].
  unfold negb at 1. cbn [andb]. unfold sret. rewrite (IH _ _ _ _ _ _ E1). destruct (forallb _ fs1); reflexivity.
Qed.
Lemma any_run n : (n <= length prog)%nat -> forall l d dn hs s a P, J n (ps n) (w n) dn hs s a P -> NoDup l -> (forall i, In i l -> (i < n)%nat) ->
  match find (has_met prog n) l with
  | Some i => exists v a', s_testany (length l) d (map (var hs) l) a = Ret (d ++ map (var (forget i hs)) l, 1, v) a' /\ a_mem a' = a_mem a /\ tells_or_null prog dn i v /\
                forall s', reach s' a' -> J n (ps n) (w n) (i :: dn) (forget i hs) s' a' P
  | None => s_testany (length l) d (map (var hs) l) a = Ret (d ++ map (var hs) l, 0, NoWrite) a
  end.
Proof.
  intros L. induction l as [|i l IH]; intros d dn hs s a P H ND Lt; [reflexivity|].
  inversion ND as [|? ? Ni ND']; subst. destruct (j_one n dn hs s a P i H L (Lt i (or_introl eq_refl))) as [Lq T].
  cbn [find length map s_testany]. unfold sbind. destruct (has_met prog n i) eqn:M.
  - destruct T as (v & a1 & T & Am & Tl & K). exists v, a1. rewrite T. split; [|auto]. change (1 =? 0) with false. cbv iota. unfold sret. rewrite var_forget.
    replace (map (var (forget i hs)) l) with (map (var hs) l); [reflexivity|]. apply map_ext_in. intros j I. symmetry. apply var_forget_other. intros ->. contradiction.
  - destruct T as [T _]. rewrite T. change (0 =? 0) with true. cbv iota. specialize (IH (d ++ [var hs i]) dn hs s a P H ND' (fun j I => Lt j (or_intror I))).
    destruct (find (has_met prog n) l) as [j|] eqn:F.
    + destruct IH as (v & a' & E1 & Am1 & T1 & K1). exists v, a'. rewrite E1. split; [|auto]. rewrite <- app_assoc. cbn [app]. do 4 f_equal. f_equal. symmetry. apply var_forget_other.
      intros ->. apply find_some in F. apply Ni. apply F.
    + rewrite IH, <- app_assoc. reflexivity.
Qed.
Lemma items_pos s a : reach s a -> 0 <= a_items a.
Proof.
  intros R. destruct (ab_ex (reach_abs _ _ R)) as (lv & f & ids & g & _ & _ & LI & _). rewrite <- (ab_items (reach_abs _ _ R)), (ListProofs.li_ic LI). apply ListProofs.sumlen_nonneg.
Qed.
Lemma array_legal n dn hs s a P l : J n (ps n) (w n) dn hs s a P -> (n <= length prog)%nat -> NoDup l -> (forall i, In i l -> (i < n)%nat) -> legal_reqs (Z.of_nat (length l)) (map (var hs) l) a.
Proof.
  intros H L ND Lt. unfold legal_reqs. rewrite Nat2Z.id. assert (Lf : firstn (length l) (map (var hs) l) = map (var hs) l) by (apply firstn_all2; rewrite map_length; lia). rewrite Lf.
  split; [rewrite map_length; lia|]. split; [|split].
  - assert (length l <= n)%nat; [|lia]. rewrite <- (seq_length n 0). apply NoDup_incl_length; [exact ND|]. intros i I. apply in_seq. specialize (Lt i I). lia.
  - intros r I. apply in_map_iff in I. destruct I as (i & <- & I). exact (proj1 (j_one n dn hs s a P i H L (Lt i I))).
  - clear Lf. induction l as [|i l IH]; [constructor|]. inversion ND as [|? ? Ni ND']; subst. specialize (IH ND' (fun j I => Lt j (or_intror I))). cbn [map filter].
    destruct (Z.eqb_spec (var hs i) MPI_REQUEST_NULL) as [E|E]; unfold negb at 1; [exact IH|]. constructor; [|exact IH].
    intros I. apply filter_In in I. destruct I as [I _]. apply in_map_iff in I. destruct I as (j & Ej & I).
    pose proof (j_var _ _ _ _ _ _ _ H (Lt i (or_introl eq_refl))) as Hi. pose proof (j_var _ _ _ _ _ _ _ H (Lt j (or_intror I))) as Hj. rewrite Ej in Hj.
    assert (D : ~ In i dn) by (intros D; apply E; exact (j_null _ _ _ _ _ _ _ _ _ _ _ _ _ H i _ Hi D)).
    pose proof (j_inj _ _ _ _ _ _ _ _ _ _ _ _ _ H i j _ Hi Hj D). subst j. contradiction.
Qed.

(** *** One call. *)
Definition one_ok (n : nat) (dn : list nat) (hs : list Z) (s : sys) (a : astate) (it : item) : Prop :=
  (returns prog n it = true -> exists o new s' a' P', does s a (item_call hs (s_mem s) it) o s' a' /\ length new = length (starts it) /\
     answers prog n dn hs (s_mem s) (s_mem s') it o new (forgets (ends prog n it) (hs ++ new)) /\ becomes c prog n it (s_mem s) (s_mem s') /\
     J (n + length (starts it)) (ps (n + length (starts it))) (w (n + length (starts it))) (ends prog n it ++ dn) (forgets (ends prog n it) (hs ++ new)) s' a' P') /\
  (returns prog n it = false -> exec c (item_call hs (s_mem s) it) s = Abort (halt it)).
Lemma between n k m m' : (n <= k)%nat -> (k <= length prog)%nat -> in_turn c prog (skipn (length (ps n)) (ps k)) m m' -> in_turn c prog (new_pairs prog n k) m m'.
Proof. intros L1 L2 T. unfold new_pairs. rewrite (proj1 (couples_first prog k L2)), (proj1 (couples_first prog n ltac:(lia))). exact T. Qed.
Lemma still n m m' : m' = m -> in_turn c prog (new_pairs prog n (n + 0)) m m'.
Proof. intros ->. rewrite Nat.add_0_r. unfold new_pairs. rewrite skipn_all. reflexivity. Qed.
Lemma new_var hs h n : length hs = n -> var (hs ++ [h]) n = h.
Proof. intros <-. apply var_at. rewrite nth_error_app2, Nat.sub_diag by lia. reflexivity. Qed.
Lemma met_lt n i : (n <= length prog)%nat -> has_met prog n i = true -> (i < n)%nat.
Proof. intros L M. apply met_spec in M; [|exact L]. destruct M as (j & M). exact (proj1 (ri_lt _ _ _ _ _ _ (ri_run prog n L) M)). Qed.
Lemma not_done n dn hs s a P : J n (ps n) (w n) dn hs s a P -> forall i, (n <= i)%nat -> ~ In i dn.
Proof. intros H i L D. pose proof (proj1 (j_done _ _ _ _ _ _ _ _ _ _ _ _ _ H i D)). lia. Qed.
Lemma complete_test h v a a' : s_test h a = Ret (MPI_REQUEST_NULL, 1, v) a' -> h <> MPI_REQUEST_NULL -> complete a h = true.
Proof.
  intros T N. unfold s_test in T. unfold complete. apply Z.eqb_neq in N. rewrite N in T |- *. destruct (req_at a h) as [q|]; [|discriminate]. destruct (report q); [reflexivity|].
  injection T as -> _ _. discriminate.
Qed.
Lemma one_post n dn hs s a P x : J n (ps n) (w n) dn hs s a P -> nth_error prog n = Some x -> one_ok n dn hs s a (Post x).
Proof.
  intros H X. split; [|discriminate]. intros _. destruct (step_post c tj a0 m0 prog CO MO OK N0 n dn hs s a P x H X HL HI) as (h & s1 & a1 & P1 & Do & Tn & H1).
  assert (Ln : (n < length prog)%nat) by (apply nth_error_Some; congruence).
  exists (VInt h), [h], s1, a1, P1. cbn [item_call starts length ends app forgets answers becomes]. rewrite Nat.add_1_r. split; [exact Do|]. split; [reflexivity|]. split; [eauto|]. split; [apply between; [lia|lia|exact Tn]|exact H1].
Qed.
(** What follows when an operation has been started and is waited for at once. *)
Lemma one_start n dn hs s a P x : J n (ps n) (w n) dn hs s a P -> nth_error prog n = Some x ->
  exists h s1 a1 P1, does s a (act_call x) (VInt h) s1 a1 /\ in_turn c prog (skipn (length (ps n)) (ps (S n))) (s_mem s) (s_mem s1) /\ J (S n) (ps (S n)) (w (S n)) dn (hs ++ [h]) s1 a1 P1 /\ (S n <= length prog)%nat /\ h <> MPI_REQUEST_NULL /\
    legal_req h a1 /\
    if has_met prog (S n) n
    then exists v a', s_test h a1 = Ret (MPI_REQUEST_NULL, 1, v) a' /\ a_mem a' = a_mem a1 /\ tells prog n v /\ (forall s', reach s' a' -> J (S n) (ps (S n)) (w (S n)) (n :: dn) (forget n (hs ++ [h])) s' a' P1)
    else s_test h a1 = Ret (h, 0, NoWrite) a1.
Proof.
  intros H X. assert (Ln : (S n <= length prog)%nat) by (assert (n < length prog)%nat by (apply nth_error_Some; congruence); lia).
  destruct (step_post c tj a0 m0 prog CO MO OK N0 n dn hs s a P x H X HL HI) as (h & s1 & a1 & P1 & Do & Tn & H1).
  pose proof (j_len _ _ _ _ _ _ _ _ _ _ _ _ _ H) as Len. pose proof (new_var hs h n Len) as V. exists h, s1, a1, P1.
  pose proof (j_one (S n) dn (hs ++ [h]) s1 a1 P1 n H1 Ln (Nat.lt_succ_diag_r n)) as [Lq T]. rewrite V in *.
  assert (Nn : ~ In n dn) by (apply (not_done _ _ _ _ _ _ H); lia).
  split; [exact Do|]. split; [exact Tn|]. split; [exact H1|]. split; [exact Ln|]. split; [|split; [exact Lq|]].
  - assert (Hn : nth_error (hs ++ [h]) n = Some h) by (rewrite nth_error_app2 by lia; rewrite <- Len, Nat.sub_diag; reflexivity).
    destruct (j_req _ _ _ _ _ _ _ _ _ _ _ _ _ H1 n h Hn Nn) as (X1 & _). unfold MPI_REQUEST_NULL. lia.
  - destruct (has_met prog (S n) n).
    + destruct T as (v & a' & T & Am & Tl & K). exists v, a'. split; [exact T|]. split; [exact Am|]. split; [|exact K]. destruct Tl as [[D _]|[_ Tl]]; [contradiction|exact Tl].
    + exact (proj1 T).
Qed.
Lemma one_ready n dn hs s a P x : J n (ps n) (w n) dn hs s a P -> nth_error prog n = Some x -> x_side x = Snd -> one_ok n dn hs s a (Ready x).
Proof.
  intros H X SX. destruct (one_start n dn hs s a P x H X) as (h & s1 & a1 & P1 & Do & Tn & H1 & Ln & Nh & Lq & T). pose proof (j_reach _ _ _ _ _ _ _ _ _ _ _ _ _ H) as R.
  pose proof (post_spec _ _ _ _ _ _ Do) as E. pose proof (proj1 Do) as Lg. unfold act_call in Lg. rewrite SX in E, Lg.
  unfold one_ok. cbn [item_call starts length ends app forgets answers becomes returns halt]. split; intros M; rewrite M in T.
  - destruct T as (v & a' & T & _). destruct (run (tj := tj) (KIrsend (x_buf x) (x_count x) (x_type x) 0 (x_tag x) (x_comm x)) s a (is VInt h) a1 R) as (o & s' & D & Ho).
    + exact Lg.
    + cbn [spec]. unfold smap, s_irsend, sbind. rewrite E, (complete_test _ _ _ _ T Nh). reflexivity.
    + exists o, [h], s', a1, P1. rewrite Nat.add_1_r. split; [exact D|]. split; [reflexivity|]. split; [exists h; split; [exact Ho|reflexivity]|]. split; [apply between; [lia|lia|]; rewrite (mem_same _ _ _ _ (j_reach _ _ _ _ _ _ _ _ _ _ _ _ _ H1) (proj1 (proj2 (proj2 D))) eq_refl); exact Tn|]. eapply J_ext; [exact H1|apply D|reflexivity].
  - apply (run_abort (tj := tj) _ _ a); [exact R|exact Lg|]. cbn [spec]. unfold smap, s_irsend, sbind. rewrite E.
    assert (Z0 : (h =? MPI_REQUEST_NULL) = false) by (apply Z.eqb_neq; exact Nh). unfold complete. rewrite Z0. unfold s_test in T. rewrite Z0 in T. destruct (req_at a1 h) as [q|]; [|discriminate].
    destruct (report q); [|reflexivity]. injection T as T _ _. congruence.
Qed.
Lemma one_block n dn hs s a P md x st : J n (ps n) (w n) dn hs s a P -> nth_error prog n = Some x -> st <> SBad -> md = Plain \/ x_side x = Snd -> one_ok n dn hs s a (Block md x st).
Proof.
  intros H X Ns Sd. destruct (one_start n dn hs s a P x H X) as (h & s1 & a1 & P1 & Do & Tn & H1 & Ln & Nh & Lq & T). pose proof (j_reach _ _ _ _ _ _ _ _ _ _ _ _ _ H) as R.
  pose proof (post_spec _ _ _ _ _ _ Do) as E. pose proof (proj1 Do) as Lg. pose proof (j_len _ _ _ _ _ _ _ _ _ _ _ _ _ H) as Len.
  assert (Fl : forall h', forget n (hs ++ [h']) = hs ++ [MPI_REQUEST_NULL]) by (intros h'; rewrite <- Len; apply forget_last).
  unfold one_ok. cbn [item_call starts length ends app forgets answers becomes returns halt]. unfold block_call, act_call in *. rewrite Nat.add_1_r.
  destruct (x_side x) eqn:SX; cbn [legal] in Lg.
  - set (k := match md with Plain => KSend (x_buf x) (x_count x) (x_type x) 0 (x_tag x) (x_comm x) | Sync => KSsend (x_buf x) (x_count x) (x_type x) 0 (x_tag x) (x_comm x)
                       | Rdy => KRsend (x_buf x) (x_count x) (x_type x) 0 (x_tag x) (x_comm x) end).
    assert (Lk : legal c tj k a) by (subst k; destruct md; exact Lg).
    assert (Sk : spec c tj k a = smap unit_out (s_send c (x_buf x) (x_count x) (x_type x) 0 (x_tag x) (x_comm x)) a) by (subst k; destruct md; reflexivity).
    split; intros M; rewrite M in T.
    + destruct T as (v & a2 & T & Am & Tl & K). destruct (run (tj := tj) k s a (unit_out tt) a2 R Lk) as (o & s' & D & Ho).
      * rewrite Sk. unfold smap, s_send, s_wait, sbind. rewrite E, T. reflexivity.
      * exists o, [MPI_REQUEST_NULL], s', a2, P1. split; [exact D|]. split; [reflexivity|]. split; [split; [reflexivity|exact Ho]|]. split; [apply between; [lia|lia|]; rewrite (mem_same _ _ _ _ (j_reach _ _ _ _ _ _ _ _ _ _ _ _ _ H1) (proj1 (proj2 (proj2 D))) Am); exact Tn|]. rewrite Fl, <- (Fl h). apply K. apply D.
    + apply (run_abort (tj := tj) _ _ a); [exact R|exact Lk|]. rewrite Sk. unfold smap, s_send, s_wait, sbind. rewrite E, T. reflexivity.
  - destruct Sd as [->|Sd]; [|discriminate].
    split; intros M; rewrite M in T.
    + destruct T as (v & a2 & T & Am & Tl & K).
      destruct (run (tj := tj) (KRecv (x_buf x) (x_count x) (x_type x) (x_src x) (x_tag x) (x_comm x) st) s a (fun o => exists st', wrote st v st' /\ o = VStatus (with_count st' (x_count x))) a2 R) as (o & s' & D & st' & W & ->).
      * split; [exact Lg|exact Ns].
      * cbn [spec]. unfold smap, s_recv, s_wait, sbind. rewrite E, T. reflexivity.
      * eexists _, [MPI_REQUEST_NULL], s', a2, P1. split; [exact D|]. split; [reflexivity|]. split; [split; [reflexivity|]; exists v, st'; auto|]. split; [apply between; [lia|lia|]; rewrite (mem_same _ _ _ _ (j_reach _ _ _ _ _ _ _ _ _ _ _ _ _ H1) (proj1 (proj2 (proj2 D))) Am); exact Tn|]. rewrite Fl, <- (Fl h). apply K. apply D.
    + apply (run_abort (tj := tj) _ _ a); [exact R|split; [exact Lg|exact Ns]|]. cbn [spec]. unfold smap, s_recv, s_wait, sbind. rewrite E, T. reflexivity.
Qed.

Lemma one_both n dn hs s a P x y st : J n (ps n) (w n) dn hs s a P -> nth_error prog n = Some y -> nth_error prog (S n) = Some x ->
  st <> SBad -> x_side x = Snd -> x_side y = Rcv -> x_comm y = x_comm x -> one_ok n dn hs s a (Both x y st).
Proof.
  intros H Y X Ns SX SY CY. destruct (one_start n dn hs s a P y H Y) as (h1 & s1 & a1 & P1 & Do1 & Tn1 & H1 & Ln1 & Nh1 & Lq1 & _).
  destruct (one_start (S n) dn (hs ++ [h1]) s1 a1 P1 x H1 X) as (h2 & s2 & a2 & P2 & Do2 & Tn2 & H2 & Ln2 & Nh2 & Lq2 & T2).
  pose proof (j_reach _ _ _ _ _ _ _ _ _ _ _ _ _ H) as R. pose proof (j_len _ _ _ _ _ _ _ _ _ _ _ _ _ H) as Len. pose proof (j_reach _ _ _ _ _ _ _ _ _ _ _ _ _ H2) as R2.
  pose proof (post_spec _ _ _ _ _ _ Do1) as E1. pose proof (post_spec _ _ _ _ _ _ Do2) as E2. pose proof (proj1 Do1) as Lg1. pose proof (proj1 Do2) as Lg2.
  unfold act_call in Lg1, Lg2. rewrite SY in E1, Lg1. rewrite SX in E2, Lg2. rewrite CY in E1, Lg1. cbn [legal] in Lg1, Lg2.
  assert (Nn : ~ In n dn) by (apply (not_done _ _ _ _ _ _ H); lia).
  set (k := KSendrecv (x_buf x) (x_count x) (x_type x) 0 (x_tag x) (x_buf y) (x_count y) (x_type y) (x_src y) (x_tag y) (x_comm x) st).
  assert (Lk : legal c tj k a) by (split; [exact Ns|]; split; [exact Lg1|]; rewrite E1; exact Lg2).
  assert (F2 : forall u v, forget (S n) (hs ++ [u; v]) = hs ++ [u; MPI_REQUEST_NULL]).
  { intros u v. replace (hs ++ [u; v]) with ((hs ++ [u]) ++ [v]) by (rewrite <- app_assoc; reflexivity). replace (S n) with (length (hs ++ [u])) by (rewrite app_length; cbn [length]; lia). rewrite forget_last, <- app_assoc. reflexivity. }
  assert (F1 : forall u v, forget n (hs ++ [u; v]) = hs ++ [MPI_REQUEST_NULL; v]) by (intros u v; rewrite <- Len; apply forget_mid).
  assert (Ea : (hs ++ [h1]) ++ [h2] = hs ++ [h1; h2]) by (rewrite <- app_assoc; reflexivity). rewrite Ea in *.
  unfold one_ok. cbn [item_call starts length ends app forgets answers becomes returns halt]. fold k. replace (n + 2)%nat with (S (S n)) by lia.
  destruct (has_met prog (S (S n)) (S n)) eqn:M2; cbn [andb].
  2:{ split; [discriminate|]. intros _. apply (run_abort (tj := tj) _ _ a); [exact R|exact Lk|]. cbn [spec k]. unfold smap, s_sendrecv, s_send, s_wait, sbind. rewrite E1, E2, T2. reflexivity. }
  destruct T2 as (v2 & a3 & T2 & Am2 & _ & K2). destruct (reach_after _ _ _ _ _ R2 Lq2 T2) as (s3 & R3). pose proof (K2 s3 R3) as H3.
  rewrite F2 in H3. destruct (j_one (S (S n)) _ _ s3 a3 P2 n H3 Ln2 ltac:(lia)) as [_ T1].
  assert (V1 : var (hs ++ [h1; MPI_REQUEST_NULL]) n = h1) by (apply var_at; rewrite nth_error_app2, <- Len, Nat.sub_diag by lia; reflexivity). rewrite V1 in T1.
  destruct (has_met prog (S (S n)) n) eqn:M1.
  2:{ split; [discriminate|]. intros _. apply (run_abort (tj := tj) _ _ a); [exact R|exact Lk|]. cbn [spec k]. unfold smap, s_sendrecv, s_send, s_wait, sbind. rewrite E1, E2, T2.
      change (1 =? 0) with false. cbv iota. unfold sret. rewrite (proj1 T1). reflexivity. }
  split; [|discriminate]. intros _. destruct T1 as (v1 & a4 & T1 & Am1 & Tl & K1).
  destruct (run (tj := tj) k s a (fun o => exists st', wrote st v1 st' /\ o = VStatus st') a4 R Lk) as (o & s' & D & st' & W & ->).
  { cbn [spec k]. unfold smap, s_sendrecv, s_send, s_wait, sbind. rewrite E1, E2, T2. change (1 =? 0) with false. cbv iota. unfold sret. rewrite T1. reflexivity. }
  exists (VStatus st'), [MPI_REQUEST_NULL; MPI_REQUEST_NULL], s', a4, P2. split; [exact D|]. split; [reflexivity|]. split.
  - split; [reflexivity|]. exists v1, st'. split; [|auto]. destruct Tl as [[[I|I] _]|[_ Tl]]; [lia|contradiction|exact Tl].
  - split; [apply between; [lia|lia|]; rewrite (pairs_between prog n (S n) (S (S n))) by lia; apply turn_app; exists (s_mem s1); split; [exact Tn1|];
      rewrite (mem_same _ _ _ _ R2 (proj1 (proj2 (proj2 D))) (eq_trans Am1 Am2)); exact Tn2|].
    rewrite F2, F1. rewrite F1 in K1. eapply J_ext; [apply K1; apply D|apply D|]. intros i. cbn [In]. tauto.
Qed.
Lemma one_await n dn hs s a P i st : J n (ps n) (w n) dn hs s a P -> (n <= length prog)%nat -> (i < n)%nat -> st <> SBad -> one_ok n dn hs s a (Await i st).
Proof.
  intros H L Li Ns. destruct (j_one n dn hs s a P i H L Li) as [Lq T]. pose proof (j_reach _ _ _ _ _ _ _ _ _ _ _ _ _ H) as R.
  unfold one_ok. cbn [item_call starts length ends app forgets answers becomes returns halt]. rewrite Nat.add_0_r. split; intros M; rewrite M in T.
  - destruct T as (v & a' & T & Am & Tl & K). destruct (run (tj := tj) (KWait (var hs i) st) s a (fun o => exists st', wrote st v st' /\ o = VWait MPI_REQUEST_NULL st') a' R (conj Lq Ns)) as (o & s' & D & st' & W & ->).
    { cbn [spec]. unfold smap, s_wait, sbind. rewrite T. reflexivity. }
    exists (VWait MPI_REQUEST_NULL st'), [], s', a', P. rewrite app_nil_r. split; [exact D|]. split; [reflexivity|]. split; [split; [reflexivity|]; exists v, st'; auto|]. split; [rewrite <- (Nat.add_0_r n) at 2; apply still; exact (mem_same _ _ _ _ R (proj1 (proj2 (proj2 D))) Am)|]. apply K. apply D.
  - apply (run_abort (tj := tj) _ _ a); [exact R|split; assumption|]. cbn [spec]. unfold smap, s_wait, sbind. rewrite (proj1 T). reflexivity.
Qed.
Lemma one_poll n dn hs s a P i st : J n (ps n) (w n) dn hs s a P -> (n <= length prog)%nat -> (i < n)%nat -> st <> SBad -> one_ok n dn hs s a (Poll i st).
Proof.
  intros H L Li Ns. destruct (j_one n dn hs s a P i H L Li) as [Lq T]. pose proof (j_reach _ _ _ _ _ _ _ _ _ _ _ _ _ H) as R.
  unfold one_ok. cbn [item_call starts length ends app forgets answers becomes returns halt]. rewrite Nat.add_0_r. split; [|discriminate]. intros _. destruct (has_met prog n i).
  - destruct T as (v & a' & T & Am & Tl & K). destruct (run (tj := tj) (KTest (var hs i) st) s a (fun o => exists st', wrote st v st' /\ o = VTest MPI_REQUEST_NULL 1 st') a' R (conj Lq Ns)) as (o & s' & D & st' & W & ->).
    { cbn [spec]. unfold smap, sbind. rewrite T. reflexivity. }
    exists (VTest MPI_REQUEST_NULL 1 st'), [], s', a', P. rewrite app_nil_r. split; [exact D|]. split; [reflexivity|]. split; [split; [reflexivity|]; exists v, st'; auto|]. split; [rewrite <- (Nat.add_0_r n) at 2; apply still; exact (mem_same _ _ _ _ R (proj1 (proj2 (proj2 D))) Am)|]. apply K. apply D.
  - destruct T as [T _]. destruct (run (tj := tj) (KTest (var hs i) st) s a (fun o => exists st', wrote st NoWrite st' /\ o = VTest (var hs i) 0 st') a R (conj Lq Ns)) as (o & s' & D & st' & W & ->).
    { cbn [spec]. unfold smap, sbind. rewrite T. reflexivity. }
    cbn [wrote] in W. subst st'. eexists _, [], s', a, P. rewrite app_nil_r. split; [exact D|]. split; [reflexivity|]. split; [split; reflexivity|]. split; [rewrite <- (Nat.add_0_r n) at 2; apply still; exact (mem_same _ _ _ _ R (proj1 (proj2 (proj2 D))) eq_refl)|]. eapply J_ext; [exact H|apply D|reflexivity].
Qed.
Lemma free_test h v a a' : s_test h a = Ret (MPI_REQUEST_NULL, 1, v) a' -> s_request_free h a = Ret MPI_REQUEST_NULL a' /\ complete a h = true.
Proof.
  intros T. unfold s_test in T. unfold s_request_free, complete. destruct (h =? MPI_REQUEST_NULL) eqn:Z0.
  - injection T as _ <-. auto.
  - destruct (req_at a h) as [q|]; [|discriminate]. destruct (report q); [|injection T as -> _ _; discriminate]. split; [|reflexivity].
    unfold sbind in *. destruct (s_free h a) as [u b| |]; try discriminate. injection T as _ <-. reflexivity.
Qed.
Lemma one_drop n dn hs s a P i : J n (ps n) (w n) dn hs s a P -> (n <= length prog)%nat -> has_met prog n i = true -> one_ok n dn hs s a (Drop i).
Proof.
  intros H L M. destruct (j_one n dn hs s a P i H L (met_lt n i L M)) as [Lq T]. pose proof (j_reach _ _ _ _ _ _ _ _ _ _ _ _ _ H) as R.
  unfold one_ok. cbn [item_call starts length ends app forgets answers becomes returns halt]. rewrite Nat.add_0_r. split; [|discriminate]. intros _. rewrite M in T.
  destruct T as (v & a' & T & Am & Tl & K). destruct (free_test _ _ _ _ T) as [F Cm].
  destruct (run (tj := tj) (KRequestFree (var hs i)) s a (is VInt MPI_REQUEST_NULL) a' R) as (o & s' & D & Ho).
  { exact Cm. } { cbn [spec]. unfold smap, sbind. rewrite F. reflexivity. }
  exists o, [], s', a', P. rewrite app_nil_r. split; [exact D|]. split; [reflexivity|]. split; [split; [reflexivity|exact Ho]|]. split; [rewrite <- (Nat.add_0_r n) at 2; apply still; exact (mem_same _ _ _ _ R (proj1 (proj2 (proj2 D))) Am)|]. apply K. apply D.
Qed.

Lemma named_lt n l : forallb (fun i => i <? n)%nat l = true -> forall i, In i l -> (i < n)%nat.
Proof. intros F i I. apply Nat.ltb_lt. exact (proj1 (forallb_forall _ l) F i I). Qed.
Lemma flags_all n l : forallb (fun f => negb (f =? 0)) (map (flag_of n) l) = forallb (has_met prog n) l.
Proof. induction l as [|i l IH]; [reflexivity|]. cbn [map forallb]. rewrite IH. unfold flag_of. destruct (has_met prog n i); reflexivity. Qed.
Lemma flags_many n l : how_many (map (flag_of n) l) = Z.of_nat (length (filter (has_met prog n) l)).
Proof.
  unfold how_many. f_equal. induction l as [|i l IH]; [reflexivity|]. cbn [map filter]. unfold flag_of at 1. destruct (has_met prog n i).
  - change (negb (1 =? 0)) with true. cbv iota. cbn [length]. rewrite IH. reflexivity.
  - exact IH.
Qed.
Lemma sts_legal n sts : sts_ok n sts -> legal_sts (Z.of_nat n) sts.
Proof. destruct sts; cbn [sts_ok legal_sts]; lia. Qed.
Lemma in_rev_app {A} (l d : list A) i : In i (rev l ++ d) <-> In i (l ++ d).
Proof. rewrite !in_app_iff, <- in_rev. reflexivity. Qed.
Lemma filter_all {A} (f : A -> bool) l : forallb f l = true -> filter f l = l.
Proof. intros F. induction l as [|i l IH]; [reflexivity|]. cbn [forallb filter] in *. apply andb_true_iff in F. destruct F as [-> F]. rewrite IH; auto. Qed.
Lemma one_await_all n dn hs s a P l sts : J n (ps n) (w n) dn hs s a P -> (n <= length prog)%nat -> (forall i, In i l -> (i < n)%nat) -> NoDup l -> sts_ok (length l) sts ->
  one_ok n dn hs s a (AwaitAll l sts).
Proof.
  intros H L Lt ND So. pose proof (j_reach _ _ _ _ _ _ _ _ _ _ _ _ _ H) as R.
  destruct (tests_run n L l dn hs s a P H ND Lt) as (ws & a' & T & Am & F & K). pose proof (waits_run _ _ _ _ _ _ _ T) as Wt. rewrite flags_all in Wt.
  assert (Lg : legal c tj (KWaitall (Z.of_nat (length l)) (map (var hs) l) sts) a) by (split; [exact (array_legal n dn hs s a P l H L ND Lt)|exact (sts_legal _ _ So)]).
  unfold one_ok. cbn [item_call starts length ends app forgets answers becomes returns halt]. rewrite Nat.add_0_r. split; intros M; rewrite M in Wt.
  - rewrite (filter_all _ _ M) in *.
    destruct (run (tj := tj) _ s a (fun o => exists sts', wrote_all sts ws sts' /\ o = VAll (map (var (forgets l hs)) l) 1 sts') a' R Lg) as (o & s' & D & sts' & W & ->).
    { cbn [spec]. unfold smap, sbind. rewrite Nat2Z.id, Wt. reflexivity. }
    eexists _, [], s', a', P. rewrite app_nil_r. split; [exact D|]. split; [reflexivity|]. split.
    + split; [reflexivity|]. exists ws, sts'. split; [|split; [exact W|]].
      * rewrite forallb_forall in M. clear - M F. induction F as [|i v l ws T F IH]; constructor; [|apply IH; intros; apply M; right; assumption].
        unfold tells_if_met in T. rewrite (M i (or_introl eq_refl)) in T. exact T.
      * f_equal. apply map_ext_in. intros i I. apply var_forgets. left. exact I.
    + split; [rewrite <- (Nat.add_0_r n) at 2; apply still; exact (mem_same _ _ _ _ R (proj1 (proj2 (proj2 D))) Am)|]. eapply J_ext; [apply K; apply D|apply D|]. intros i. apply in_rev_app.
  - apply (run_abort (tj := tj) _ _ a); [exact R|exact Lg|]. cbn [spec]. unfold smap, sbind. rewrite Nat2Z.id, Wt. reflexivity.
Qed.
Lemma one_poll_all n dn hs s a P kd l sts : J n (ps n) (w n) dn hs s a P -> (n <= length prog)%nat -> (forall i, In i l -> (i < n)%nat) -> NoDup l -> sts_ok (length l) sts ->
  one_ok n dn hs s a (PollAll kd l sts).
Proof.
  intros H L Lt ND So. pose proof (j_reach _ _ _ _ _ _ _ _ _ _ _ _ _ H) as R.
  destruct (tests_run n L l dn hs s a P H ND Lt) as (ws & a' & T & Am & F & K). set (E := filter (has_met prog n) l) in *.
  pose proof (conj (array_legal n dn hs s a P l H L ND Lt) (sts_legal _ _ So)) as Lg.
  unfold one_ok. split; [|discriminate]. intros _.
  assert (exists sts' o s', does s a (item_call hs (s_mem s) (PollAll kd l sts)) o s' a' /\ wrote_all sts ws sts' /\
    o = match kd with TestAll => VAll (map (var (forgets E hs)) l) (if forallb (has_met prog n) l then 1 else 0) sts' | TestSome ix | WaitSome ix => VSome (map (var (forgets E hs)) l) (Z.of_nat (length E)) ix sts' end)
    as (sts' & o & s' & D & W & Eo).
  { destruct kd as [|ix|ix]; cbn [item_call].
    - destruct (run (tj := tj) (KTestall (Z.of_nat (length l)) (map (var hs) l) sts) s a (fun o => exists sts', wrote_all sts ws sts' /\ o = VAll (map (var (forgets E hs)) l) (all_set (map (flag_of n) l)) sts') a' R Lg) as (o & s' & D & sts' & W & Eo).
      { cbn [spec]. unfold smap, sbind. rewrite Nat2Z.id, T. reflexivity. }
      unfold all_set in Eo. rewrite flags_all in Eo. exists sts', o, s'. auto.
    - destruct (run (tj := tj) (KTestsome (Z.of_nat (length l)) (map (var hs) l) ix sts) s a (fun o => exists sts', wrote_all sts ws sts' /\ o = VSome (map (var (forgets E hs)) l) (how_many (map (flag_of n) l)) ix sts') a' R Lg) as (o & s' & D & sts' & W & Eo).
      { cbn [spec]. unfold smap, sbind. rewrite Nat2Z.id, T. reflexivity. }
      rewrite flags_many in Eo. exists sts', o, s'. auto.
    - destruct (run (tj := tj) (KWaitsome (Z.of_nat (length l)) (map (var hs) l) ix sts) s a (fun o => exists sts', wrote_all sts ws sts' /\ o = VSome (map (var (forgets E hs)) l) (how_many (map (flag_of n) l)) ix sts') a' R Lg) as (o & s' & D & sts' & W & Eo).
      { cbn [spec]. unfold smap, sbind. rewrite Nat2Z.id, T. reflexivity. }
      rewrite flags_many in Eo. exists sts', o, s'. auto. }
  exists o, [], s', a', P. cbn [starts length ends answers becomes]. fold E. rewrite Nat.add_0_r, app_nil_r. split; [exact D|]. split; [reflexivity|]. split.
  - split; [reflexivity|]. exists ws, sts'. auto.
  - split; [rewrite <- (Nat.add_0_r n) at 2; apply still; exact (mem_same _ _ _ _ R (proj1 (proj2 (proj2 D))) Am)|]. eapply J_ext; [apply K; apply D|apply D|]. intros i. apply in_rev_app.
Qed.
Lemma one_any n dn hs s a P wt l ix st : J n (ps n) (w n) dn hs s a P -> (n <= length prog)%nat -> (forall i, In i l -> (i < n)%nat) -> NoDup l -> st <> SBad ->
  one_ok n dn hs s a (AnyOf wt l ix st).
Proof.
  intros H L Lt ND So. pose proof (j_reach _ _ _ _ _ _ _ _ _ _ _ _ _ H) as R. pose proof (any_run n L l [] dn hs s a P H ND Lt) as T.
  pose proof (conj (array_legal n dn hs s a P l H L ND Lt) So) as Lg.
  unfold one_ok. cbn [starts length ends answers becomes halt]. rewrite Nat.add_0_r. destruct (find (has_met prog n) l) as [i|] eqn:Fd; cbn [app] in T.
  - split.
    2:{ intros X. exfalso. cbn [returns] in X. destruct wt; [|discriminate]. apply find_some in Fd. assert (existsb (has_met prog n) l = true) by (apply existsb_exists; exists i; exact Fd). congruence. }
    intros _. destruct T as (v & a' & T & Am & Tl & K).
    assert (exists st' s', does s a (item_call hs (s_mem s) (AnyOf wt l ix st)) (VAny (map (var (forget i hs)) l) ix 1 st') s' a' /\ wrote st v st') as (st' & s' & D & W).
    { destruct wt; cbn [item_call].
      - destruct (run (tj := tj) (KWaitany (Z.of_nat (length l)) (map (var hs) l) ix st) s a (fun o => exists st', wrote st v st' /\ o = VAny (map (var (forget i hs)) l) ix 1 st') a' R Lg) as (o & s' & D & st' & W & ->).
        { cbn [spec]. unfold smap, s_waitany, sbind. rewrite Nat2Z.id, T. reflexivity. }
        eauto.
      - destruct (run (tj := tj) (KTestany (Z.of_nat (length l)) (map (var hs) l) ix st) s a (fun o => exists st', wrote st v st' /\ o = VAny (map (var (forget i hs)) l) ix 1 st') a' R Lg) as (o & s' & D & st' & W & ->).
        { cbn [spec]. unfold smap, sbind. rewrite Nat2Z.id, T. reflexivity. }
        eauto. }
    eexists _, [], s', a', P. cbn [forgets app]. rewrite app_nil_r. split; [exact D|]. split; [reflexivity|]. split; [split; [reflexivity|]; exists v, st'; auto|]. split; [rewrite <- (Nat.add_0_r n) at 2; apply still; exact (mem_same _ _ _ _ R (proj1 (proj2 (proj2 D))) Am)|]. apply K. apply D.
  - destruct wt; cbn [returns item_call].
    + split.
      * intros X. exfalso. apply existsb_exists in X. destruct X as (i & I & M). pose proof (find_none _ _ Fd i I). congruence.
      * intros _. apply (run_abort (tj := tj) _ _ a); [exact R|exact Lg|]. cbn [spec]. unfold smap, s_waitany, sbind. rewrite Nat2Z.id, T. reflexivity.
    + split; [|discriminate]. intros _.
      destruct (run (tj := tj) (KTestany (Z.of_nat (length l)) (map (var hs) l) ix st) s a (fun o => exists st', wrote st NoWrite st' /\ o = VAny (map (var hs) l) ix 0 st') a R Lg) as (o & s' & D & st' & W & ->).
      { cbn [spec]. unfold smap, sbind. rewrite Nat2Z.id, T. reflexivity. }
      cbn [wrote] in W. subst st'. eexists _, [], s', a, P. cbn [forgets app]. rewrite app_nil_r. split; [exact D|]. split; [reflexivity|]. split; [split; reflexivity|]. split; [rewrite <- (Nat.add_0_r n) at 2; apply still; exact (mem_same _ _ _ _ R (proj1 (proj2 (proj2 D))) eq_refl)|]. eapply J_ext; [exact H|apply D|reflexivity].
Qed.
(** What a probe finds. *)
Lemma offered (y : act) hs : x_side y = Rcv -> forall u Q, (forall i, In i u -> exists z, nth_error prog i = Some z) ->
  Forall2 (waits_for prog hs (x_comm y) Snd) (filter (on_side prog (x_comm y) Snd) u) Q ->
  match find (fits_at prog y) u with
  | Some j => exists x b p e, nth_error prog j = Some x /\ p_tag p = x_tag x /\ Q = b ++ p :: e /\ goes_with Rcv (x_tag y) (p_tag p) = true /\ forall q, In q b -> goes_with Rcv (x_tag y) (p_tag q) = false
  | None => forall q, In q Q -> goes_with Rcv (x_tag y) (p_tag q) = false
  end.
Proof.
  intros SY. induction u as [|i u IH]; intros Q Ex F; cbn [filter find] in *; [inversion F; intros q []|].
  destruct (Ex i (or_introl eq_refl)) as (z & Zi). rewrite (on_side_ok prog _ z _ _ Zi) in F. unfold fits_at at 1. rewrite Zi.
  assert (Ex' : forall i, In i u -> exists z, nth_error prog i = Some z) by (intros; apply Ex; right; assumption).
  destruct ((x_comm z =? x_comm y) && same_side (x_side z) Snd) eqn:S.
  - inversion F as [|? p ? Q' W F']; subst. destruct W as (x & Xi & CX & SX & _ & _ & Tg & _). assert (x = z) by congruence. subst x.
    specialize (IH Q' Ex' F'). assert (Fg : fit y z = goes_with Rcv (x_tag y) (p_tag p)) by (rewrite Tg, <- SY; apply fit_goes; [exact CX|rewrite SY; exact SX]). rewrite Fg.
    destruct (goes_with Rcv (x_tag y) (p_tag p)) eqn:G.
    + exists z, [], p, Q'. repeat split; auto. intros q [].
    + destruct (find (fits_at prog y) u) as [j|].
      * destruct IH as (x & b & p' & e & A & B & -> & D & E). exists x, (p :: b), p', e. repeat split; auto. intros q [<-|I]; auto.
      * intros q [<-|I]; auto.
  - assert (Fz : fit y z = false).
    { destruct (fit y z) eqn:Fy; [|reflexivity]. exfalso. pose proof (fit_comm _ _ Fy) as C1. pose proof (fit_sides _ _ Fy) as C2. rewrite SY in C2. rewrite C1, Z.eqb_refl, C2 in S. discriminate. }
    rewrite Fz. apply IH; auto.
Qed.
Lemma one_look n dn hs s a P wt y st k : J n (ps n) (w n) dn hs s a P -> (n <= length prog)%nat -> st <> SBad -> x_side y = Rcv -> x_src y = 0 \/ x_src y = MPI_ANY_SOURCE ->
  comm_at a0 (x_comm y) = Some k -> (forall p, In p (k_sends k) -> goes_with Rcv (x_tag y) (p_tag p) = false) -> one_ok n dn hs s a (Look wt y st).
Proof.
  intros H L Ns SY So K0 Al. pose proof (j_reach _ _ _ _ _ _ _ _ _ _ _ _ _ H) as R. pose proof (j_comm _ _ _ _ _ _ _ _ _ _ _ _ _ H _ _ K0) as Ek.
  pose proof (j_waits _ _ _ _ _ _ _ _ _ _ _ _ _ H (x_comm y) Snd) as F. set (Q := P (x_comm y) Snd) in *. set (k' := mkAcomm (k_uid k) (k_sends k ++ Q) (k_recvs k ++ P (x_comm y) Rcv)) in *.
  assert (Ex : forall i, In i (w n) -> exists z, nth_error prog i = Some z).
  { intros i I. assert (i < n)%nat by (apply (ri_in _ _ _ _ i (ri_run prog n L)); auto). destruct (nth_error prog i) as [z|] eqn:Zi; [eauto|]. apply nth_error_None in Zi. lia. }
  pose proof (offered y hs SY (w n) Q Ex F) as O.
  destruct (C24_lemma s a (x_src y) (x_tag y) (x_comm y) k' st R Ek So Ns) as [Some_there None_there].
  unfold one_ok, returns, answers, becomes, on_offer. rewrite (proj2 (couples_first prog n L)). cbn [starts length ends app forgets halt]. rewrite Nat.add_0_r.
  destruct (find (fits_at prog y) (w n)) as [j|].
  - destruct O as (x & b & p & e & Xj & Tg & Eq & G & Bf).
    destruct (Some_there (k_sends k ++ b) p e) as (s' & st' & D1 & D2 & W & _).
    { split; [cbn [line other k' k_sends]; rewrite Eq, app_assoc; reflexivity|]. split; [exact G|]. intros q I. apply in_app_or in I. destruct I as [I|I]; auto. }
    split; [|destruct wt; discriminate]. intros _. exists (if wt then VStatus st' else VProbe 1 st'), [], s', a, P. rewrite app_nil_r. split; [destruct wt; assumption|]. split; [reflexivity|]. split.
    + split; [reflexivity|]. exists x, st'. rewrite <- Tg. auto.
    + split; [rewrite <- (Nat.add_0_r n) at 2; apply still; exact (mem_same _ _ _ _ R (proj1 (proj2 (proj2 D1))) eq_refl)|]. eapply J_ext; [exact H|apply D1|reflexivity].
  - assert (Ng : none_goes Rcv (x_tag y) k') by (intros q I; cbn [line other k' k_sends] in I; apply in_app_or in I; destruct I as [I|I]; auto).
    destruct (None_there Ng) as [(s' & D) Ab]. destruct wt; cbn [item_call].
    + split; [discriminate|]. intros _. exact Ab.
    + split; [|discriminate]. intros _. exists (VProbe 0 st), [], s', a, P. rewrite app_nil_r. split; [exact D|]. split; [reflexivity|]. split; [split; reflexivity|]. split; [rewrite <- (Nat.add_0_r n) at 2; apply still; exact (mem_same _ _ _ _ R (proj1 (proj2 (proj2 D))) eq_refl)|]. eapply J_ext; [exact H|apply D|reflexivity].
Qed.
(** The program's own work. *)
Lemma one_own n dn hs s a P f : J n (ps n) (w n) dn hs s a P -> (forall m, same_domain m (f m)) -> one_ok n dn hs s a (Own f).
Proof.
  intros H SD. pose proof (j_reach _ _ _ _ _ _ _ _ _ _ _ _ _ H) as R. unfold one_ok. cbn [item_call starts length ends app forgets answers becomes returns halt]. rewrite Nat.add_0_r. split; [|discriminate]. intros _.
  destruct (run (tj := tj) (KUser (f (s_mem s))) s a (fun o => o = VUnit) (with_mem a (f (s_mem s))) R) as (o & s' & D & ->); [exact I|reflexivity|].
  assert (Em : s_mem s' = f (s_mem s)) by (rewrite (ab_mem (reach_abs _ _ (proj1 (proj2 (proj2 D))))); reflexivity).
  exists VUnit, [], s', (with_mem a (f (s_mem s))), P. rewrite app_nil_r. split; [exact D|]. split; [reflexivity|]. split; [split; reflexivity|]. split; [exact Em|].
  pose proof (proj1 (proj2 (proj2 D))) as R'. destruct H. constructor; auto.
  rewrite Em. intros z. rewrite (j_dom z). apply SD.
Qed.
(** Another call. *)
Lemma one_aside n dn hs s a P k Rk : J n (ps n) (w n) dn hs s a P -> aside_ok c tj aa cms k Rk -> one_ok n dn hs s a (Aside k Rk).
Proof.
  intros H AS. pose proof (j_reach _ _ _ _ _ _ _ _ _ _ _ _ _ H) as R. unfold one_ok. cbn [item_call starts length ends app forgets answers becomes returns halt]. rewrite Nat.add_0_r. split; [|discriminate]. intros _.
  assert (Em0 : a_mem a = s_mem s) by (symmetry; exact (ab_mem (reach_abs _ _ R))).
  destruct (AS a) as (L & Q & m' & Sp & SD & QR).
  - constructor.
    + intros h t T. exact (j_type _ _ _ _ _ N0 _ _ _ _ _ _ _ _ H _ _ (AT _ _ T)).
    + intros cm I. destruct (CM cm I) as (u & K). eexists. exact (j_comm _ _ _ _ _ _ _ _ _ _ _ _ _ H cm _ K).
    + rewrite Em0. intros z. rewrite (AM z). exact (j_dom _ _ _ _ _ _ _ _ _ _ _ _ _ H z).
  - rewrite Em0. eapply mem_ok_domain; [exact (j_dom _ _ _ _ _ _ _ _ _ _ _ _ _ H)|exact MO].
  - destruct (run (tj := tj) k s a Q (with_mem a m') R L Sp) as (o & s' & D & Qo).
    assert (Em : s_mem s' = m') by (rewrite (ab_mem (reach_abs _ _ (proj1 (proj2 (proj2 D))))); reflexivity).
    specialize (QR o Qo). rewrite Em0 in QR, SD.
    exists o, [], s', (with_mem a m'), P. rewrite app_nil_r, Em. split; [exact D|]. split; [reflexivity|]. split; [split; [reflexivity|exact QR]|]. split; [exists o; exact QR|].
    pose proof (proj1 (proj2 (proj2 D))) as R'. destruct H. constructor; auto.
    rewrite Em. intros z. rewrite (j_dom z). apply SD.
Qed.
(** Any call. *)
Lemma one_run n dn hs s a P it : J n (ps n) (w n) dn hs s a P -> (n + length (starts it) <= length prog)%nat ->
  (forall k x, nth_error (starts it) k = Some x -> nth_error prog (n + k) = Some x) -> item_ok c tj aa cms it -> named prog n it = true -> one_ok n dn hs s a it.
Proof.
  intros H L At Io Nm. destruct it as [x|x|md x st|x y st|i st|i st|i|l sts|kd l sts|wt l ix st|wt y st|f|k Rk]; cbn [starts length item_ok named] in *; rewrite ?Nat.add_0_r in L.
  - eapply one_post; eauto. rewrite <- (Nat.add_0_r n). apply At. reflexivity.
  - eapply one_ready; eauto. rewrite <- (Nat.add_0_r n). apply At. reflexivity.
  - eapply one_block; [exact H| |apply Io|apply Io]. rewrite <- (Nat.add_0_r n). apply At. reflexivity.
  - destruct Io as (A & B & C & D). eapply one_both; eauto; [rewrite <- (Nat.add_0_r n)|rewrite <- Nat.add_1_r]; apply At; reflexivity.
  - apply Nat.ltb_lt in Nm. eapply one_await; eauto.
  - apply Nat.ltb_lt in Nm. eapply one_poll; eauto.
  - eapply one_drop; eauto.
  - eapply one_await_all; [exact H|exact L|exact (named_lt _ _ Nm)|apply Io|apply Io].
  - eapply one_poll_all; [exact H|exact L|exact (named_lt _ _ Nm)|apply Io|apply Io].
  - eapply one_any; [exact H|exact L|exact (named_lt _ _ Nm)|apply Io|apply Io].
  - destruct Io as (A & B & C & D). destruct (CM _ D) as (u & K). eapply one_look; eauto. intros q [].
  - eapply one_own; eauto.
  - eapply one_aside; eauto.
Qed.
Lemma run_items : forall p n dn hs s a P, J n (ps n) (w n) dn hs s a P -> (n + length (started p) <= length prog)%nat ->
  (forall k x, nth_error (started p) k = Some x -> nth_error prog (n + k) = Some x) -> Forall (item_ok c tj aa cms) p -> all_named prog n p = true -> flows prog n p = true ->
  exists hs' s' a' P', goes n dn hs p s a hs' s' a' /\ evolves c prog n p (s_mem s) (s_mem s') /\ J (n + length (started p)) (ps (n + length (started p))) (w (n + length (started p))) (seen prog n dn p) hs' s' a' P'.
Proof.
  induction p as [|it p IH]; intros n dn hs s a P H Ln At So Nm Fl.
  - exists hs, s, a, P. cbn [started flat_map length seen]. rewrite Nat.add_0_r. split; [constructor|]. split; [reflexivity|exact H].
  - change (started (it :: p)) with (starts it ++ started p) in *. rewrite app_length in *. cbn [all_named flows seen] in *. apply andb_true_iff in Nm, Fl. destruct Nm as [N1 N2], Fl as [F1 F2].
    inversion So as [|? ? S1 S2]; subst.
    destruct (one_run n dn hs s a P it H) as [Go _]; [lia| |exact S1|exact N1|].
    { intros k x E. apply At. rewrite nth_error_app1; [exact E|]. apply nth_error_Some. congruence. }
    destruct (Go F1) as (o & new & s1 & a1 & P1 & D & Ln' & An & Bc & H1).
    destruct (IH _ _ _ _ _ _ H1) as (hs' & s' & a' & P' & G & Ev & HJ); [lia| |exact S2|exact N2|exact F2|].
    { intros k x E. rewrite <- Nat.add_assoc. apply At. rewrite nth_error_app2 by lia. rewrite <- E. f_equal. lia. }
    rewrite Nat.add_assoc. exists hs', s', a', P'. split; [econstructor; eauto|]. split; [exists (s_mem s1); auto|exact HJ].
Qed.
End Run.

Lemma split_stop prog : forall p n, all_named prog n p = true -> flows prog n p = false -> exists q it r, p = q ++ it :: r /\ all_named prog n q = true /\ flows prog n q = true /\
  named prog (n + length (started q)) it = true /\ returns prog (n + length (started q)) it = false.
Proof.
  induction p as [|it p IH]; intros n Nm Fl; [discriminate|]. cbn [all_named flows] in *. apply andb_true_iff in Nm. destruct Nm as [N1 N2].
  destruct (returns prog n it) eqn:M; cbn [andb] in Fl.
  - destruct (IH _ N2 Fl) as (q & it' & r & -> & A & B & D & E). exists (it :: q), it', r. cbn [all_named flows]. rewrite N1, M. cbn [andb].
    change (started (it :: q)) with (starts it ++ started q). rewrite app_length, Nat.add_assoc. repeat split; auto.
  - exists [], it, p. cbn [started flat_map length]. rewrite Nat.add_0_r. repeat split; auto.
Qed.
Lemma started_app p q : started (p ++ q) = started p ++ started q.
Proof. apply flat_map_app. Qed.

(** *** The state in which a program begins. *)
Lemma f2_left {A B} (R : A -> B -> Prop) l l' i : Forall2 R l l' -> In i l -> exists p, In p l' /\ R i p.
Proof. intros F. induction F as [|x y l l' H F IH]; intros I; [destruct I|]. destruct I as [<-|I]; [exists y; split; [left; reflexivity|exact H]|]. destruct (IH I) as (p & P1 & P2). exists p. split; [right; exact P1|exact P2]. Qed.
Lemma f2_nth {A B} (R : A -> B -> Prop) l l' : Forall2 R l l' -> forall t x y, nth_error l t = Some x -> nth_error l' t = Some y -> R x y.
Proof. intros F. induction F as [|x0 y0 l l' H F IH]; intros [|t] x y X Y; try discriminate; cbn [nth_error] in *; [congruence|eauto]. Qed.
Lemma f2_nth_l {A B} (R : A -> B -> Prop) l l' : Forall2 R l l' -> forall t x, nth_error l t = Some x -> exists y, nth_error l' t = Some y /\ R x y.
Proof. intros F. induction F as [|x0 y0 l l' H F IH]; intros [|t] x X; try discriminate; cbn [nth_error] in *; [injection X as <-; eauto|eauto]. Qed.
Lemma pick_none_of f : forall l, (forall i, In i l -> f i = false) -> pick f l = None.
Proof. induction l as [|i l IH]; intros H; [reflexivity|]. cbn [pick]. rewrite (H i (or_introl eq_refl)), IH; [reflexivity|]. intros j I. apply H. right. exact I. Qed.
Lemma filter_nil {A} (f : A -> bool) l : (forall i, In i l -> f i = false) -> filter f l = [].
Proof. induction l as [|i l IH]; intros H; [reflexivity|]. cbn [filter]. rewrite (H i (or_introl eq_refl)). apply IH. intros j I. apply H. right. exact I. Qed.
Lemma nodup_at {A B} (g : A -> B) l t t' x y : NoDup (map g l) -> nth_error l t = Some x -> nth_error l t' = Some y -> g x = g y -> t = t'.
Proof.
  intros ND X Y E. rewrite NoDup_nth_error in ND. apply ND; [rewrite map_length; apply nth_error_Some; congruence|].
  rewrite !nth_error_map, X, Y. cbn [option_map]. congruence.
Qed.

Section Start.
Variable c : cfg.
Variable tj : Z -> tjunk.
Variables (s : sys) (a : astate) (cms : list Z) (old new : list act) (hs0 : list Z).
Hypothesis R : reach c tj s a.
Hypothesis SG : standing a cms old hs0.
Notation n0 := (length old).
Notation prog := (old ++ new).

(** Operation [i] of the old ones waits on its communicator. *)
Lemma old_waits i x : nth_error old i = Some x -> exists k p, comm_at a (x_comm x) = Some k /\ In p (line (x_side x) k) /\ nth_error hs0 i = Some (p_req p) /\ p_tag p = x_tag x /\
  req_at a (p_req p) = Some (QPending (x_side x) (k_uid k) (p_id p)).
Proof.
  intros X. destruct (sg_wait _ _ _ _ SG _ (sg_comm _ _ _ _ SG x (nth_error_In _ _ X))) as (k & K & F). specialize (F (x_side x)).
  assert (I : In i (filter (on_side old (x_comm x) (x_side x)) (seq 0 n0))).
  { apply filter_In. split; [apply in_seq; assert (i < n0)%nat by (apply nth_error_Some; congruence); lia|]. rewrite (on_side_ok old i x _ _ X), Z.eqb_refl, (proj2 (same_side_eq _ _) eq_refl). reflexivity. }
  destruct (f2_left _ _ _ _ F I) as (p & Ip & z & Z1 & _ & _ & Rq & _ & Tg & _). assert (z = x) by congruence. subst z. exists k, p. do 4 (split; [assumption|]).
  pose proof (reach_inv _ _ R) as IV. destruct (x_side x); [exact (SysInv.iv_qs _ IV _ _ _ K Ip)|exact (SysInv.iv_qr _ IV _ _ _ K Ip)].
Qed.
Lemma old_apart i j x y : nth_error old i = Some x -> nth_error old j = Some y -> fit x y = false.
Proof.
  intros X Y. destruct (fit x y) eqn:F; [exfalso|reflexivity]. pose proof (fit_comm _ _ F) as CY. pose proof (fit_sides _ _ F) as SY. rewrite (fit_goes x y CY SY) in F.
  destruct (old_waits i x X) as (k & p & K & Ip & _ & Tp & _). destruct (old_waits j y Y) as (k' & q & K' & Iq & _ & Tq & _). rewrite CY in K'. assert (k' = k) by congruence. subst k'.
  rewrite SY in Iq. pose proof (reach_inv _ _ R) as IV. rewrite <- Tp, <- Tq in F. destruct (x_side x); cbn [other line] in *.
  - pose proof (SysInv.iv_apart _ IV _ _ _ _ K Ip Iq). unfold goes_with in F. congruence.
  - pose proof (SysInv.iv_apart _ IV _ _ _ _ K Iq Ip). unfold goes_with in F. congruence.
Qed.
Lemma upon_old : forall n, (n <= n0)%nat -> upon prog n = ([], seq 0 n).
Proof.
  induction n as [|n IH]; intros L; [reflexivity|]. rewrite upon_S, IH by lia. unfold meet. destruct (nth_error prog n) as [x|] eqn:X; [|apply nth_error_None in X; rewrite app_length in X; lia].
  rewrite nth_error_app1 in X by lia. cbn [fst snd]. rewrite (pick_none_of (fits_at prog x)).
  - rewrite seq_S. reflexivity.
  - intros j I. apply in_seq in I. unfold fits_at. rewrite nth_error_app1 by lia. destruct (nth_error old j) as [y|] eqn:Y; [|reflexivity]. exact (old_apart n j x y X Y).
Qed.
Lemma old_inj i j h : nth_error hs0 i = Some h -> nth_error hs0 j = Some h -> i = j.
Proof.
  intros Hi Hj. pose proof (sg_len _ _ _ _ SG) as Len.
  assert (G : forall i, nth_error hs0 i = Some h -> exists x, nth_error old i = Some x).
  { intros t T. destruct (nth_error old t) as [x|] eqn:X; [eauto|]. apply nth_error_None in X. assert (t < length hs0)%nat by (apply nth_error_Some; congruence). lia. }
  destruct (G i Hi) as (x & X). destruct (G j Hj) as (y & Y). destruct (old_waits i x X) as (k & p & K & Ip & Rp & _ & Qp). destruct (old_waits j y Y) as (k' & q & K' & Iq & Rq & _ & Qq).
  assert (E : p_req q = p_req p) by congruence. rewrite E, Qp in Qq. injection Qq as E1 E2 E3. pose proof (reach_inv _ _ R) as IV.
  pose proof (hy_uid _ (SysInv.iv_hist _ IV) _ _ _ _ K K' E2) as Ec.
  destruct (sg_wait _ _ _ _ SG _ (sg_comm _ _ _ _ SG x (nth_error_In _ _ X))) as (k1 & K1 & F). assert (k1 = k) by congruence. subst k1. specialize (F (x_side x)).
  assert (I : forall t z, nth_error old t = Some z -> x_comm z = x_comm x -> x_side z = x_side x -> In t (filter (on_side old (x_comm x) (x_side x)) (seq 0 n0))).
  { intros t z T C1 C2. apply filter_In. split; [apply in_seq; assert (t < n0)%nat by (apply nth_error_Some; congruence); lia|]. rewrite (on_side_ok old t z _ _ T), C1, C2, Z.eqb_refl, (proj2 (same_side_eq _ _) eq_refl). reflexivity. }
  pose proof (I i x X eq_refl eq_refl) as Ii. pose proof (I j y Y (eq_sym Ec) (eq_sym E1)) as Ij.
  apply In_nth_error in Ii, Ij. destruct Ii as (t & Ti). destruct Ij as (t' & Tj). destruct (f2_nth_l _ _ _ F t i Ti) as (p1 & P1 & W1). destruct (f2_nth_l _ _ _ F t' j Tj) as (q1 & Q1 & W2).
  destruct W1 as (z1 & _ & _ & _ & B1 & _). destruct W2 as (z2 & _ & _ & _ & B2 & _).
  assert (N1 : p_req p1 = p_req q1) by congruence.
  assert (Ep : p_id p1 = p_id q1).
  { assert (A : forall u, In u (line (x_side x) k) -> req_at a (p_req u) = Some (QPending (x_side x) (k_uid k) (p_id u))) by (intros u Iu; destruct (x_side x); [exact (SysInv.iv_qs _ IV _ _ _ K Iu)|exact (SysInv.iv_qr _ IV _ _ _ K Iu)]).
    pose proof (A p1 (nth_error_In _ _ P1)) as A1. pose proof (A q1 (nth_error_In _ _ Q1)) as A2. rewrite N1, A2 in A1. congruence. }
  pose proof (SysInv.sorted_nodup _ (SysInv.queue_sorted a (x_side x) _ _ IV K)) as ND. assert (t = t') by exact (nodup_at p_id _ t t' _ _ ND P1 Q1 Ep). subst t'. congruence.
Qed.
Lemma old_live i h : nth_error hs0 i = Some h -> 1 <= h <= a_top a /\ ~ In h (a_freed a) /\ exists q, req_at a h = Some q /\ report q = None.
Proof.
  intros Hi. assert (exists x, nth_error old i = Some x) as (x & X).
  { destruct (nth_error old i) as [x|] eqn:X; [eauto|]. apply nth_error_None in X. assert (i < length hs0)%nat by (apply nth_error_Some; congruence). pose proof (sg_len _ _ _ _ SG). lia. }
  destruct (old_waits i x X) as (k & p & _ & _ & Rp & _ & Qp). assert (h = p_req p) by congruence. subst h.
  destruct (SysInv.hw_live _ (SysInv.iv_hw _ (reach_inv _ _ R)) (p_req p)) as [A B]; [unfold req_at in Qp; destruct (a_obj a (p_req p)); congruence|]. split; [exact A|]. split; [exact B|]. eexists. split; [exact Qp|reflexivity].
Qed.
Lemma old_few : Z.of_nat n0 + Z.of_nat (length (a_freed a)) <= a_top a.
Proof.
  pose proof (SysInv.iv_hw _ (reach_inv _ _ R)) as W.
  assert (ND : NoDup (hs0 ++ a_freed a)).
  { assert (N1 : NoDup hs0) by (apply NoDup_nth_error; intros i j Hi E; destruct (nth_error hs0 i) as [h|] eqn:Eh; [symmetry in E; exact (old_inj i j h Eh E)|apply nth_error_Some in Hi; congruence]).
    assert (N2 : forall h, In h hs0 -> ~ In h (a_freed a)) by (intros h I; apply In_nth_error in I; destruct I as (i & I); exact (proj1 (proj2 (old_live i h I)))).
    pose proof (SysInv.hw_nd _ W) as N3. clear - N1 N2 N3. induction hs0 as [|h l IH]; [exact N3|]. inversion N1; subst. cbn [app]. constructor.
    - intros I. apply in_app_or in I. destruct I as [I|I]; [contradiction|exact (N2 h (or_introl eq_refl) I)].
    - apply IH; [assumption|]. intros; apply N2; right; assumption. }
  assert (IC : incl (hs0 ++ a_freed a) (map (fun i => Z.of_nat i + 1) (seq 0 (Z.to_nat (a_top a))))).
  { intros h I. assert (B : 1 <= h <= a_top a) by (apply in_app_or in I; destruct I as [I|I]; [apply In_nth_error in I; destruct I as (i & I); exact (proj1 (old_live i h I))|exact (SysInv.hw_fr _ W h I)]).
    apply in_map_iff. exists (Z.to_nat (h - 1)). split; [lia|]. apply in_seq. lia. }
  pose proof (NoDup_incl_length ND IC) as Q. rewrite app_length, map_length, seq_length, (sg_len _ _ _ _ SG) in Q. pose proof (SysInv.hw_top _ W). lia.
Qed.

(** The same state without what waits: the program begins there, and the first calls were those of [old]. *)
Definition before : astate :=
  mkA (cleared a cms hs0) (a_freed a) (a_top a - Z.of_nat n0) (a_mem a) (a_init a) (a_made a) (a_ntypes a) (a_heads a) (a_items a - Z.of_nat n0) (a_clock a) (a_log a).
Lemma cleared_in h : In h hs0 -> cleared a cms hs0 h = None.
Proof. intros I. unfold cleared. rewrite (proj2 (existsb_exists (Z.eqb h) hs0)); [reflexivity|]. exists h. split; [exact I|apply Z.eqb_refl]. Qed.
Lemma existsb_not h l : ~ In h l -> existsb (Z.eqb h) l = false.
Proof. intros N. destruct (existsb (Z.eqb h) l) eqn:E; [|reflexivity]. apply existsb_exists in E. destruct E as (x & I & E). apply Z.eqb_eq in E. congruence. Qed.
Lemma cleared_out h : ~ In h hs0 -> ~ In h cms -> cleared a cms hs0 h = a_obj a h.
Proof. intros N1 N2. unfold cleared. rewrite !existsb_not by assumption. reflexivity. Qed.
Lemma cleared_not_comm h : ~ In h hs0 -> comm_at a h = None -> cleared a cms hs0 h = a_obj a h.
Proof. intros N1 N2. unfold cleared. rewrite existsb_not by assumption. destruct (existsb _ cms); [|reflexivity]. unfold comm_at in N2. destruct (a_obj a h) as [[]|]; try reflexivity. discriminate. Qed.
Lemma req_not_comm h : In h hs0 -> comm_at a h = None.
Proof. intros I. apply In_nth_error in I. destruct I as (i & I). destruct (old_live i h I) as (_ & _ & q & Q & _). unfold req_at in Q. unfold comm_at. destruct (a_obj a h) as [[]|]; congruence. Qed.
Lemma before_in cm k : In cm cms -> comm_at a cm = Some k -> comm_at before cm = Some (mkAcomm (k_uid k) [] []).
Proof.
  intros I K. assert (N : ~ In cm hs0) by (intros X; apply req_not_comm in X; congruence). unfold comm_at, before, cleared. cbn [a_obj]. rewrite (existsb_not _ _ N), (proj2 (existsb_exists (Z.eqb cm) cms)) by (exists cm; split; [exact I|apply Z.eqb_refl]).
  unfold comm_at in K. destruct (a_obj a cm) as [[]|]; try discriminate. injection K as ->. reflexivity.
Qed.
Lemma before_comm cm k : comm_at before cm = Some k -> exists k', comm_at a cm = Some k' /\ k_uid k = k_uid k' /\ (In cm cms -> k_sends k = [] /\ k_recvs k = []) /\ (~ In cm cms -> k = k').
Proof.
  unfold comm_at, before, cleared. cbn [a_obj]. destruct (existsb (Z.eqb cm) hs0); [discriminate|]. destruct (existsb (Z.eqb cm) cms) eqn:E.
  - assert (In cm cms) by (apply existsb_exists in E; destruct E as (x & I & E); apply Z.eqb_eq in E; congruence). destruct (a_obj a cm) as [[k0| |]|]; try discriminate. intros X. injection X as <-. exists k0. cbn. split; [reflexivity|]. split; [reflexivity|]. split; [auto|contradiction].
  - assert (N : ~ In cm cms) by (intros I; rewrite (proj2 (existsb_exists (Z.eqb cm) cms)) in E by (exists cm; split; [exact I|apply Z.eqb_refl]); discriminate).
    destruct (a_obj a cm) as [[k0| |]|]; try discriminate. intros X. injection X as <-. exists k0. split; [reflexivity|]. split; [reflexivity|]. split; [contradiction|reflexivity].
Qed.
Lemma before_type ty ts : type_at c a ty = Some ts -> type_at c before ty = Some ts.
Proof.
  intros T. unfold type_at in *. destruct (_ <? 0); [exact T|]. cbn [before a_obj]. destruct (a_obj a ty) as [[| |t]|] eqn:E; try discriminate.
  assert (Nh : ~ In ty hs0) by (intros I; apply In_nth_error in I; destruct I as (i & I); destruct (old_live i ty I) as (_ & _ & q & Q & _); unfold req_at in Q; rewrite E in Q; discriminate).
  rewrite cleared_not_comm; [rewrite E; exact T|exact Nh|unfold comm_at; rewrite E; reflexivity].
Qed.
Definition old_line (cm : Z) (sd : side) : list pend := if existsb (Z.eqb cm) cms then match comm_at a cm with Some k => line sd k | None => [] end else [].
Lemma cms_true cm : existsb (Z.eqb cm) cms = true <-> In cm cms.
Proof. rewrite existsb_exists. split; [intros (x & I & E); apply Z.eqb_eq in E; congruence|intros I; exists cm; split; [exact I|apply Z.eqb_refl]]. Qed.
Lemma waits_longer cm sd u Q : (forall i, In i u -> (i < n0)%nat) -> Forall2 (waits_for old hs0 cm sd) u Q -> Forall2 (waits_for prog hs0 cm sd) u Q.
Proof.
  intros L F. induction F as [|i p u Q W F IH]; constructor; [|apply IH; intros; apply L; right; assumption]. destruct W as (x & X & W). exists x. split; [|exact W]. rewrite nth_error_app1; [exact X|]. apply L. left. reflexivity.
Qed.
Lemma filter_longer cm sd : filter (on_side prog cm sd) (seq 0 n0) = filter (on_side old cm sd) (seq 0 n0).
Proof. apply filter_ext_in. intros i I. apply in_seq in I. unfold on_side. rewrite nth_error_app1 by lia. reflexivity. Qed.
Lemma begin : J c tj before (s_mem s) prog n0 (fst (upon prog n0)) (snd (upon prog n0)) [] hs0 s a old_line.
Proof.
  rewrite (upon_old n0 (le_n _)). cbn [fst snd]. constructor.
  - exact R.
  - intros cm k K. destruct (before_comm cm k K) as (k' & K' & U & A & B). unfold old_line. destruct (existsb (Z.eqb cm) cms) eqn:E.
    + apply cms_true in E. destruct (A E) as [A1 A2]. rewrite K', A1, A2, U. destruct k'; reflexivity.
    + assert (N : ~ In cm cms) by (intros I; apply cms_true in I; congruence). rewrite (B N), !app_nil_r, K'. destruct k'; reflexivity.
  - intros cm sd. rewrite filter_longer. unfold old_line. destruct (existsb (Z.eqb cm) cms) eqn:E.
    + apply cms_true in E. destruct (sg_wait _ _ _ _ SG cm E) as (k & K & F). rewrite K. apply waits_longer; [|apply F]. intros i I. apply filter_In in I. destruct I as [I _]. apply in_seq in I. lia.
    + assert (F : filter (on_side old cm sd) (seq 0 n0) = []); [|rewrite F; constructor]. apply filter_nil. intros i I. apply in_seq in I. unfold on_side. destruct (nth_error old i) as [x|] eqn:X; [|reflexivity].
      destruct (Z.eqb_spec (x_comm x) cm) as [Ec|]; [|reflexivity]. exfalso. pose proof (sg_comm _ _ _ _ SG x (nth_error_In _ _ X)) as I'. rewrite Ec in I'. apply cms_true in I'. congruence.
  - intros z. reflexivity.
  - intros i h Hi _. destruct (old_live i h Hi) as (A & _ & q & Q & Rq). split; [lia|]. split; [exact (cleared_in h (nth_error_In _ _ Hi))|]. exists q. split; [exact Q|]. left. split; [|exact Rq].
    apply in_seq. assert (i < length hs0)%nat by (apply nth_error_Some; congruence). rewrite (sg_len _ _ _ _ SG) in *. lia.
  - intros i h _ [].
  - intros i [].
  - intros i j h Hi Hj _. exact (old_inj i j h Hi Hj).
  - intros x Nx K. cbn [before a_obj]. unfold comm_at, before in K. cbn [a_obj] in K. unfold cleared in *. rewrite (existsb_not x hs0 Nx) in *. destruct (existsb (Z.eqb x) cms); [|reflexivity].
    destruct (a_obj a x) as [[]|]; try reflexivity. discriminate.
  - exact (sg_len _ _ _ _ SG).
  - unfold handles_left, before. cbn [a_freed a_top]. lia.
  - unfold before. cbn [a_items]. lia.
Qed.
Lemma begin_ok : course_ok c a (s_mem s) cms prog -> acts_ok c before (s_mem s) prog.
Proof.
  intros OK. assert (Cm : forall x, In x prog -> exists k, comm_at a (x_comm x) = Some k /\ comm_at before (x_comm x) = Some (mkAcomm (k_uid k) [] [])).
  { intros x I. pose proof (co_comm _ _ _ _ _ OK x I) as Ic. destruct (sg_wait _ _ _ _ SG _ Ic) as (k & K & _). exists k. split; [exact K|]. exact (before_in _ _ Ic K). }
  constructor.
  - intros x I. destruct (Cm x I) as (k & _ & K). eauto.
  - exact (co_source _ _ _ _ _ OK).
  - intros i j x y I X Y. destruct (co_pair _ _ _ _ _ OK i j x y I X Y). constructor; auto using before_type.
  - intros x k p I K Ip. destruct (Cm x I) as (k' & _ & K'). rewrite K' in K. injection K as <-. destruct (x_side x); destruct Ip.
Qed.
End Start.

Section Whole.
Variable c : cfg.
Variable tj : Z -> tjunk.
Variables (s : sys) (a : astate) (cms : list Z) (old : list act) (hs0 : list Z) (p : list item).
Hypothesis R : reach c tj s a.
Hypothesis CO : cfg_ok c.
Hypothesis MO : mem_ok (s_mem s).
Hypothesis SG : standing a cms old hs0.
Notation n0 := (length old).
Notation prog := (old ++ started p).
Hypothesis OK : course_ok c a (s_mem s) cms prog.
Hypothesis HL : Z.of_nat (length (started p)) <= handles_left a.
Hypothesis HI : a_items a + Z.of_nat (length (started p)) <= INT_MAX.
Hypothesis So : Forall (item_ok c tj a cms) p.
Notation b0 := (before a cms old hs0).

Lemma wh_null : a_obj b0 MPI_REQUEST_NULL = None.
Proof.
  cbn [before a_obj]. pose proof (null_free _ _ _ _ R) as N. unfold cleared. rewrite N. destruct (existsb _ hs0); [reflexivity|]. destruct (existsb _ cms); reflexivity.
Qed.
Lemma wh_left : Z.of_nat (length prog) <= handles_left b0.
Proof. unfold handles_left in *. cbn [before a_freed a_top]. rewrite app_length. lia. Qed.
Lemma wh_items : a_items b0 + Z.of_nat (length prog) <= INT_MAX.
Proof. cbn [before a_items]. rewrite app_length. lia. Qed.
Lemma wh_max : Z.of_nat (length prog) <= INT_MAX.
Proof. pose proof (old_few c tj s a cms old hs0 R SG). unfold handles_left in HL. rewrite app_length. unfold CAPACITY, INT_MAX in *. lia. Qed.
Lemma wh_cms cm : In cm cms -> exists u, comm_at b0 cm = Some (mkAcomm u [] []).
Proof. intros I. destruct (sg_wait _ _ _ _ SG cm I) as (k & K & _). exists (k_uid k). exact (before_in c tj s a cms old hs0 R SG cm k I K). Qed.
Lemma wh_types h t : type_at c a h = Some t -> type_at c b0 h = Some t.
Proof. exact (before_type c tj s a cms old hs0 R SG h t). Qed.
Lemma wh_mem : same_domain (a_mem a) (s_mem s).
Proof. rewrite (ab_mem (reach_abs _ _ R)). intros z. reflexivity. Qed.
Lemma wh_run q : (n0 + length (started q) <= length prog)%nat -> (forall k x, nth_error (started q) k = Some x -> nth_error prog (n0 + k) = Some x) ->
  Forall (item_ok c tj a cms) q -> all_named prog n0 q = true -> flows prog n0 q = true ->
  exists hs s1 a1 P, goes c tj prog n0 [] hs0 q s a hs s1 a1 /\ evolves c prog n0 q (s_mem s) (s_mem s1) /\
    J c tj b0 (s_mem s) prog (n0 + length (started q)) (fst (upon prog (n0 + length (started q)))) (snd (upon prog (n0 + length (started q)))) (seen prog n0 [] q) hs s1 a1 P.
Proof.
  intros L At Sq Nq Fq.
  exact (run_items c tj b0 (s_mem s) prog CO MO (begin_ok c tj s a cms old (started p) hs0 R SG OK) wh_null wh_left wh_items wh_max cms wh_cms a wh_types wh_mem q n0 [] hs0 s a _ (begin c tj s a cms old (started p) hs0 R SG) L At Sq Nq Fq).
Qed.
Theorem C108_goes_here : all_named prog n0 p = true -> flows prog n0 p = true ->
  let done := seen prog n0 [] p in
  exists hs s1 a1, goes c tj prog n0 [] hs0 p s a hs s1 a1 /\
    evolves c prog n0 p (s_mem s) (s_mem s1) /\
    (forall cm, In cm cms -> exists k k1, comm_at a cm = Some k /\ comm_at a1 cm = Some k1 /\ k_uid k1 = k_uid k /\
       forall sd, Forall2 (waits_for prog hs cm sd) (filter (on_side prog cm sd) (left_over prog)) (line sd k1)) /\
    length hs = length prog /\
    (forall i h, nth_error hs i = Some h -> In i done -> h = MPI_REQUEST_NULL /\ ~ In i (left_over prog)) /\
    (forall i h, nth_error hs i = Some h -> ~ In i done -> cleared a cms hs0 h = None /\ exists q, req_at a1 h = Some q /\ reports prog i q) /\
    (forall x, ~ In x hs -> ~ In x cms -> a_obj a1 x = cleared a cms hs0 x) /\
    ((forall i, (i < length prog)%nat -> In i done) -> forall x, a_obj a1 x = cleared a cms hs0 x).
Proof.
  intros Nm Fl done. destruct (wh_run p) as (hs & s1 & a1 & P & G & Ev & HJ); [rewrite app_length; lia| |exact So|exact Nm|exact Fl|].
  { intros k x E. rewrite nth_error_app2 by lia. rewrite <- E. f_equal. lia. }
  replace (n0 + length (started p))%nat with (length prog) in HJ by (rewrite app_length; reflexivity). fold done in HJ.
  assert (Qs : forall cm k, comm_at b0 cm = Some k -> exists k1, comm_at a1 cm = Some k1 /\ k_uid k1 = k_uid k /\ forall sd, exists Q, line sd k1 = line sd k ++ Q /\ Forall2 (waits_for prog hs cm sd) (filter (on_side prog cm sd) (left_over prog)) Q).
  { intros cm k K0. eexists. split; [exact (j_comm _ _ _ _ _ _ _ _ _ _ _ _ _ HJ cm k K0)|]. split; [reflexivity|]. intros sd. exists (P cm sd). split; [destruct sd; reflexivity|]. exact (j_waits _ _ _ _ _ _ _ _ _ _ _ _ _ HJ cm sd). }
  exists hs, s1, a1. split; [exact G|]. split; [exact Ev|]. split; [|split; [exact (j_len _ _ _ _ _ _ _ _ _ _ _ _ _ HJ)|split; [|split; [|split]]]].
  - intros cm I. destruct (sg_wait _ _ _ _ SG cm I) as (k & K & _). destruct (Qs cm _ (before_in c tj s a cms old hs0 R SG cm k I K)) as (k1 & K1 & U & F). exists k, k1. do 3 (split; [assumption|]).
    intros sd. destruct (F sd) as (Q & E & F'). rewrite E. destruct sd; exact F'.
  - intros i h Hi D. split; [exact (j_null _ _ _ _ _ _ _ _ _ _ _ _ _ HJ i h Hi D)|exact (proj2 (j_done _ _ _ _ _ _ _ _ _ _ _ _ _ HJ i D))].
  - intros i h Hi D. destruct (j_req _ _ _ _ _ _ _ _ _ _ _ _ _ HJ i h Hi D) as (_ & X & Y). auto.
  - intros x Nx Nc. destruct (comm_at b0 x) as [k|] eqn:K; [|exact (j_rest _ _ _ _ _ _ _ _ _ _ _ _ _ HJ x Nx K)].
    pose proof (j_comm _ _ _ _ _ _ _ _ _ _ _ _ _ HJ x k K) as K1. destruct (Qs x k K) as (k1 & K1' & _ & F).
    assert (El : forall sd, filter (on_side prog x sd) (left_over prog) = []).
    { intros sd. apply filter_nil. intros i _. unfold on_side. destruct (nth_error prog i) as [z|] eqn:Z1; [|reflexivity]. destruct (Z.eqb_spec (x_comm z) x) as [E|]; [|reflexivity].
      destruct Nc. rewrite <- E. exact (co_comm _ _ _ _ _ OK z (nth_error_In _ _ Z1)). }
    assert (Pn : forall sd, P x sd = []) by (intros sd; pose proof (j_waits _ _ _ _ _ _ _ _ _ _ _ _ _ HJ x sd) as W; fold (left_over prog) in W; rewrite El in W; inversion W; reflexivity).
    rewrite !Pn, !app_nil_r in K1. apply SysHist.comm_obj in K1, K. rewrite K1. cbn [before a_obj] in K. rewrite K. destruct k; reflexivity.
  - intros All x. destruct (comm_at b0 x) as [k|] eqn:K.
    + destruct (Qs x k K) as (k1 & K1 & U & L).
      assert (W : left_over prog = []).
      { destruct (left_over prog) as [|i l] eqn:W; [reflexivity|exfalso].
        assert (I : In i (left_over prog)) by (rewrite W; left; reflexivity).
        assert (Li : (i < length prog)%nat) by (apply (ri_in _ _ _ _ i (rule_final prog)); auto).
        exact (proj2 (j_done _ _ _ _ _ _ _ _ _ _ _ _ _ HJ i (All i Li)) I). }
      rewrite W in L. cbn [filter] in L. destruct (L Snd) as (P1 & E1 & F1). destruct (L Rcv) as (P2 & E2 & F2). inversion F1; subst. inversion F2; subst. rewrite app_nil_r in E1, E2. cbn [line] in E1, E2.
      apply SysHist.comm_obj in K, K1. cbn [before a_obj] in K. rewrite K, K1. destruct k, k1. cbn in *. congruence.
    + destruct (in_dec Z.eq_dec x hs) as [I|I]; [|exact (j_rest _ _ _ _ _ _ _ _ _ _ _ _ _ HJ x I K)].
      apply In_nth_error in I. destruct I as (i & Hi). assert (Li : (i < length hs)%nat) by (apply nth_error_Some; congruence). rewrite (j_len _ _ _ _ _ _ _ _ _ _ _ _ _ HJ) in Li.
      rewrite (j_null _ _ _ _ _ _ _ _ _ _ _ _ _ HJ i x Hi (All i Li)). change (cleared a cms hs0 MPI_REQUEST_NULL) with (a_obj b0 MPI_REQUEST_NULL). rewrite wh_null. exact (null_free _ _ _ _ (j_reach _ _ _ _ _ _ _ _ _ _ _ _ _ HJ)).
Qed.
Theorem C108_stops_here : all_named prog n0 p = true -> flows prog n0 p = false ->
  exists q it r hs s1 a1, p = q ++ it :: r /\ flows prog n0 q = true /\ goes c tj prog n0 [] hs0 q s a hs s1 a1 /\
    returns prog (n0 + length (started q)) it = false /\ exec c (item_call hs (s_mem s1) it) s1 = Abort (halt it).
Proof.
  intros Nm Fl. destruct (split_stop prog p n0 Nm Fl) as (q & it & r & Ep & Nq & Fq & Ni & K).
  assert (Es : started p = started q ++ starts it ++ started r) by (rewrite Ep, started_app; reflexivity).
  assert (So' := So). rewrite Ep in So'. apply Forall_app in So'. destruct So' as [Sq Sr]. assert (Si : item_ok c tj a cms it) by (inversion Sr; assumption).
  assert (Lq : (n0 + length (started q) + length (starts it) <= length prog)%nat) by (rewrite Es, !app_length; lia).
  destruct (wh_run q) as (hs & s1 & a1 & P & G & Ev & HJ); [lia| |exact Sq|exact Nq|exact Fq|].
  { intros k x E. rewrite nth_error_app2 by lia. replace (n0 + k - n0)%nat with k by lia. rewrite Es, nth_error_app1; [exact E|]. apply nth_error_Some. congruence. }
  exists q, it, r, hs, s1, a1. do 4 (split; [assumption|]).
  refine (proj2 (one_run c tj b0 (s_mem s) prog CO MO (begin_ok c tj s a cms old (started p) hs0 R SG OK) wh_null wh_left wh_items wh_max cms wh_cms a wh_types wh_mem _ _ _ _ _ _ it HJ Lq _ Si Ni) K).
  intros k x E. rewrite nth_error_app2 by lia. replace (n0 + length (started q) + k - n0)%nat with (length (started q) + k)%nat by lia. rewrite Es, nth_error_app2 by lia.
  replace (length (started q) + k - length (started q))%nat with k by lia. rewrite nth_error_app1; [exact E|]. apply nth_error_Some. congruence.
Qed.
End Whole.
Theorem C108_goes_lemma c tj s a cms old hs0 p : reach c tj s a -> cfg_ok c -> mem_ok (s_mem s) -> standing a cms old hs0 ->
  let prog := old ++ started p in let n0 := length old in
  course_ok c a (s_mem s) cms prog ->
  Z.of_nat (length (started p)) <= handles_left a -> a_items a + Z.of_nat (length (started p)) <= INT_MAX ->
  Forall (item_ok c tj a cms) p -> all_named prog n0 p = true -> flows prog n0 p = true ->
  let done := seen prog n0 [] p in
  exists hs s1 a1, goes c tj prog n0 [] hs0 p s a hs s1 a1 /\
    evolves c prog n0 p (s_mem s) (s_mem s1) /\
    (forall cm, In cm cms -> exists k k1, comm_at a cm = Some k /\ comm_at a1 cm = Some k1 /\ k_uid k1 = k_uid k /\
       forall sd, Forall2 (waits_for prog hs cm sd) (filter (on_side prog cm sd) (left_over prog)) (line sd k1)) /\
    length hs = length prog /\
    (forall i h, nth_error hs i = Some h -> In i done -> h = MPI_REQUEST_NULL /\ ~ In i (left_over prog)) /\
    (forall i h, nth_error hs i = Some h -> ~ In i done -> cleared a cms hs0 h = None /\ exists q, req_at a1 h = Some q /\ reports prog i q) /\
    (forall x, ~ In x hs -> ~ In x cms -> a_obj a1 x = cleared a cms hs0 x) /\
    ((forall i, (i < length prog)%nat -> In i done) -> forall x, a_obj a1 x = cleared a cms hs0 x).
Proof. intros. apply C108_goes_here; assumption. Qed.
Theorem C108_stops_lemma c tj s a cms old hs0 p : reach c tj s a -> cfg_ok c -> mem_ok (s_mem s) -> standing a cms old hs0 ->
  let prog := old ++ started p in let n0 := length old in
  course_ok c a (s_mem s) cms prog ->
  Z.of_nat (length (started p)) <= handles_left a -> a_items a + Z.of_nat (length (started p)) <= INT_MAX ->
  Forall (item_ok c tj a cms) p -> all_named prog n0 p = true -> flows prog n0 p = false ->
  exists q it r hs s1 a1, p = q ++ it :: r /\ flows prog n0 q = true /\ goes c tj prog n0 [] hs0 q s a hs s1 a1 /\
    returns prog (n0 + length (started q)) it = false /\ exec c (item_call hs (s_mem s1) it) s1 = Abort (halt it).
Proof. intros. eapply C108_stops_here; eassumption. Qed.

(** *** Without writes of its own. *)
Lemma new_all prog n m k : (n <= m)%nat -> (m <= k)%nat -> (k <= length prog)%nat -> new_pairs prog n k = new_pairs prog n m ++ new_pairs prog m k.
Proof.
  intros L1 L2 L3. unfold new_pairs. rewrite (proj1 (couples_first prog k L3)), (proj1 (couples_first prog n ltac:(lia))), (proj1 (couples_first prog m ltac:(lia))). apply pairs_between; assumption.
Qed.
Lemma evolves_turn c prog : forall p n m m', (n + length (started p) <= length prog)%nat -> existsb own p = false ->
  (evolves c prog n p m m' <-> in_turn c prog (new_pairs prog n (n + length (started p))) m m').
Proof.
  induction p as [|it p IH]; intros n m m' L O; cbn [evolves].
  - cbn [started flat_map length]. rewrite Nat.add_0_r. unfold new_pairs. rewrite skipn_all. reflexivity.
  - change (started (it :: p)) with (starts it ++ started p) in *. rewrite app_length in *. cbn [existsb] in O. apply orb_false_iff in O. destruct O as [O1 O2].
    rewrite (new_all prog n (n + length (starts it))) by (clear - L; lia). rewrite turn_app, Nat.add_assoc.
    assert (B : forall m1, becomes c prog n it m m1 <-> in_turn c prog (new_pairs prog n (n + length (starts it))) m m1) by (intros m1; destruct it; try reflexivity; discriminate).
    split; intros (m1 & A1 & A2); exists m1; (split; [apply B; exact A1|]); apply (IH (n + length (starts it))%nat m1 m' ltac:(clear - L; lia) O2); exact A2.
Qed.
Theorem C108_memory_lemma c s a cms old hs0 p m m' tj : reach c tj s a -> standing a cms old hs0 -> existsb own p = false ->
  (evolves c (old ++ started p) (length old) p m m' <-> in_turn c (old ++ started p) (couples (old ++ started p)) m m').
Proof.
  intros R SG O. rewrite (evolves_turn c (old ++ started p) p (length old) m m') by (rewrite ?app_length; auto). unfold new_pairs.
  rewrite (proj1 (couples_first (old ++ started p) (length old) ltac:(rewrite app_length; lia))), (upon_old c tj s a cms old (started p) hs0 R SG _ (le_n _)). cbn [fst length skipn].
  rewrite <- app_length, firstn_all. reflexivity.
Qed.

(** *** Every state is of this kind. *)
Definition act_of (cm : Z) (sd : side) (p : pend) : act := mkAct sd cm 0 (p_buf p) (p_tag p) (p_count p) (p_type p) (pre1 0 0) 0.
Definition lists (old : list act) (hs : list Z) (cm : Z) (sd : side) (Q : list pend) : Prop := Forall2 (waits_for old hs cm sd) (filter (on_side old cm sd) (seq 0 (length old))) Q.
Lemma lists_snoc old hs cm sd q cm' sd' Q : length hs = length old -> lists old hs cm' sd' Q ->
  lists (old ++ [act_of cm sd q]) (hs ++ [p_req q]) cm' sd' (Q ++ if (cm =? cm') && same_side sd sd' then [q] else []).
Proof.
  intros L F. unfold lists. rewrite app_length, Nat.add_comm. cbn [length]. change (1 + length old)%nat with (S (length old)). rewrite seq_S, filter_app. cbn [plus]. apply Forall2_app.
  - replace (filter (on_side (old ++ [act_of cm sd q]) cm' sd') (seq 0 (length old))) with (filter (on_side old cm' sd') (seq 0 (length old))).
    + unfold lists in F. assert (Lt : forall i, In i (filter (on_side old cm' sd') (seq 0 (length old))) -> (i < length old)%nat) by (intros i I; apply filter_In in I; destruct I as [I _]; apply in_seq in I; lia).
      clear - F L Lt. induction F as [|i p u Q W F IH]; constructor; [|apply IH; intros; apply Lt; right; assumption]. destruct W as (x & X & W1 & W2 & W3 & W4). exists x. specialize (Lt i (or_introl eq_refl)).
      rewrite !nth_error_app1 by lia. auto.
    + apply filter_ext_in. intros i I. apply in_seq in I. unfold on_side. rewrite nth_error_app1 by lia. reflexivity.
  - cbn [filter]. unfold on_side at 1. rewrite nth_error_app2, Nat.sub_diag by lia. cbn [nth_error act_of x_comm x_side]. destruct ((cm =? cm') && same_side sd sd') eqn:E; [|constructor].
    apply andb_true_iff in E. destruct E as [E1 E2]. apply Z.eqb_eq in E1. apply same_side_eq in E2. constructor; [|constructor]. exists (act_of cm sd q).
    rewrite nth_error_app2, Nat.sub_diag by lia. rewrite <- L, nth_error_app2, Nat.sub_diag by lia. cbn. auto 10.
Qed.
Lemma lists_many cm sd cm' sd' : forall qs old hs Q, length hs = length old -> lists old hs cm' sd' Q ->
  lists (old ++ map (act_of cm sd) qs) (hs ++ map p_req qs) cm' sd' (Q ++ if (cm =? cm') && same_side sd sd' then qs else []).
Proof.
  induction qs as [|q qs IH]; intros old hs Q L F.
  - cbn [map]. rewrite !app_nil_r. destruct (_ && _); rewrite app_nil_r; exact F.
  - cbn [map]. pose proof (lists_snoc old hs cm sd q cm' sd' Q L F) as F1. apply IH in F1; [|rewrite !app_length; cbn [length]; lia].
    rewrite <- !app_assoc in F1. cbn [app] in F1. destruct (_ && _); exact F1.
Qed.
Theorem C108_standing_lemma a : forall cms, NoDup cms -> (forall cm, In cm cms -> comm_at a cm <> None) -> exists old hs, standing a cms old hs /\ forall x, In x old -> x_src x = 0.
Proof.
  assert (G : forall cms, NoDup cms -> (forall cm, In cm cms -> comm_at a cm <> None) -> exists old hs, length hs = length old /\ (forall x, In x old -> In (x_comm x) cms /\ x_src x = 0) /\
    forall cm sd, lists old hs cm sd (if existsb (Z.eqb cm) cms then match comm_at a cm with Some k => line sd k | None => [] end else [])).
  { induction cms as [|cm cms IH]; intros ND Ex.
    - exists [], []. split; [reflexivity|]. split; [intros x []|]. intros cm sd. constructor.
    - inversion ND as [|? ? Ni ND']; subst. destruct (IH ND' (fun z I => Ex z (or_intror I))) as (old & hs & L & Cm & F). pose proof (Ex cm (or_introl eq_refl)) as Ek. destruct (comm_at a cm) as [k|] eqn:K; [|congruence].
      exists ((old ++ map (act_of cm Snd) (k_sends k)) ++ map (act_of cm Rcv) (k_recvs k)), ((hs ++ map p_req (k_sends k)) ++ map p_req (k_recvs k)).
      split; [rewrite !app_length, !map_length; lia|]. split.
      + intros x I. rewrite !in_app_iff in I. destruct I as [[I|I]|I]; [destruct (Cm x I); split; [right|]; assumption|apply in_map_iff in I; destruct I as (q & <- & _); split; [left|]; reflexivity|apply in_map_iff in I; destruct I as (q & <- & _); split; [left|]; reflexivity].
      + intros cm' sd'. assert (L1 : length (hs ++ map p_req (k_sends k)) = length (old ++ map (act_of cm Snd) (k_sends k))) by (rewrite !app_length, !map_length; lia).
        pose proof (lists_many cm Rcv cm' sd' (k_recvs k) _ _ _ L1 (lists_many cm Snd cm' sd' (k_sends k) old hs _ L (F cm' sd'))) as X.
        cbn [existsb]. rewrite (Z.eqb_sym cm' cm). destruct (Z.eqb_spec cm cm') as [<-|Ne]; cbn [orb andb] in *.
        * replace (existsb (Z.eqb cm) cms) with false in X by (symmetry; apply existsb_not; exact Ni). rewrite K. destruct sd'; cbn [same_side line app] in *; rewrite ?app_nil_r in X; exact X.
        * rewrite !app_nil_r in X. exact X. }
  intros cms ND Ex. destruct (G cms ND Ex) as (old & hs & L & Cm & F). exists old, hs. split; [|intros x I; apply (Cm x I)]. constructor.
  - exact L.
  - intros x I. apply (Cm x I).
  - intros cm I. specialize (Ex cm I). destruct (comm_at a cm) as [k|] eqn:K; [|congruence]. exists k. split; [reflexivity|]. intros sd. specialize (F cm sd). rewrite (proj2 (existsb_exists (Z.eqb cm) cms)) in F by (exists cm; split; [exact I|apply Z.eqb_refl]). rewrite K in F. exact F.
Qed.

(** *** The other calls. *)
Section Told.
Variables (c : cfg) (tj : Z -> tjunk).
Hypothesis CO : cfg_ok c.
Lemma with_same a : with_mem a (a_mem a) = a.
Proof. destruct a. reflexivity. Qed.
Lemma ask a cms h t q v k : type_at c a h = Some t -> q t = Ok v ->
  (forall a', later c a cms a' -> legal_query c h q a' -> legal c tj k a') -> (forall a', spec c tj k a' = smap (is VInt) (s_query c h q) a') ->
  aside_ok c tj a cms k (fun m m' o => m' = m /\ o = VInt v).
Proof.
  intros T E L S a' La _. pose proof (la_type _ _ _ _ La h t T) as T'. split.
  - apply L; [exact La|]. exists t. split; [exact T'|]. rewrite E. exact I.
  - exists (is VInt v), (a_mem a'). rewrite S, with_same. split; [|split; [intros z; reflexivity|intros o ->; split; reflexivity]].
    unfold smap, sbind, s_query. rewrite T', E. reflexivity.
Qed.
Lemma cm_known a cms a' cm : later c a cms a' -> In cm cms -> known a' cm.
Proof. intros La I. destruct (la_comm _ _ _ _ La cm I) as (k & K). right. unfold live, comm_at in *. destruct (a_obj a' cm); [discriminate|discriminate K]. Qed.
Lemma pack_later m m' U buf size pos : same_domain m m' -> pack_ok m U buf size pos -> pack_ok m' U buf size pos.
Proof. intros SD []. constructor; auto; [eapply mem_ok_domain; eauto|eapply live_domain; eauto|eapply live_domain; eauto]. Qed.
Lemma displaced_later a cms a' ty buf ds x : later c a cms a' -> displaced c a ty buf ds = Some x -> displaced c a' ty buf ds = Some x.
Proof. intros La. unfold displaced. destruct (type_at c a ty) as [t|] eqn:T; [|discriminate]. rewrite (la_type _ _ _ _ La _ _ T). auto. Qed.
Lemma plan_later a cms a' k p : later c a cms a' -> coll_plan c a k = Some p -> coll_plan c a' k = Some p.
Proof.
  intros La. pose proof (displaced_later a cms a') as DL.
  assert (M : forall u u' l ty v v' l' ty' q, (forall x, u = Some x -> u' = Some x) -> (forall x, v = Some x -> v' = Some x) -> SysSpec.moved u l ty v l' ty' = Some q -> SysSpec.moved u' l ty v' l' ty' = Some q).
  { intros u u' l ty v v' l' ty' q A B. unfold SysSpec.moved. destruct u as [x|]; [|discriminate]. rewrite (A x eq_refl). destruct l; [discriminate|]. destruct v as [y|]; [|discriminate]. rewrite (B y eq_refl). auto. }
  destruct k; cbn [coll_plan]; auto; unfold in_place, at_root;
    repeat match goal with |- context [if ?b then _ else _] => destruct b; auto end; try (apply M; intros x E; [try exact E; eapply DL; eauto|try exact E; eapply DL; eauto]).
Qed.
Theorem C108_aside_lemma a cms k Rk : told c a cms k Rk -> aside_ok c tj a cms k Rk.
Proof.
  intros T. destruct T.
  - eapply ask; eauto. exact (proj1 (C41_lemma c CO) t H0 H1).
  - destruct H0 as [_ E]. eapply ask; eauto.
  - eapply (ask a cms h t (SysSpec.elements (st_count st))); eauto. unfold SysSpec.elements. apply chk_int_ok; assumption.
  - eapply (ask a cms h t (Pack_size c n)); eauto.
    + exact (proj1 (C54_lemma c CO n t ext H0 H2 H3)).
    + intros a' La L. split; [eapply cm_known; eauto|exact L].
  - intros a' La MO. pose proof (la_type _ _ _ _ La h t H) as T'. pose proof (pack_later _ _ _ _ _ _ (la_mem _ _ _ _ La) H2) as PK.
    pose proof (C53_pack_lemma c CO (a_mem a') inbuf n t ext outbuf outsize position H0 PK) as X. cbv zeta in X. fold U in X. rewrite (proj2 (Z.leb_le _ _) H3) in X.
    destruct X as (m' & E & SD & B & O). split.
    + split; [eapply cm_known; eauto|]. unfold pack_res. rewrite T', E. exact I.
    + eexists. exists m'. split; [|split; [exact SD|]].
      * cbn [spec]. unfold smap, sbind, s_moves, pack_res. rewrite T', E. reflexivity.
      * intros o ->. auto.
  - intros a' La MO. pose proof (la_type _ _ _ _ La h t H) as T'. pose proof (pack_later _ _ _ _ _ _ (la_mem _ _ _ _ La) H2) as PK.
    pose proof (C53_unpack_lemma c CO (a_mem a') inbuf insize position outbuf n t ext H0 PK H3) as X. cbv zeta in X. fold U in X. rewrite (proj2 (Z.leb_le _ _) H4) in X.
    destruct X as (m' & E & SD & B & O). split.
    + split; [eapply cm_known; eauto|]. unfold unpack_res. rewrite T', E. exact I.
    + eexists. exists m'. split; [|split; [exact SD|]].
      * cbn [spec]. unfold smap, sbind, s_moves, unpack_res. rewrite T', E. reflexivity.
      * intros o ->. auto.
  - intros a' La MO. pose proof (plan_later _ _ _ _ _ La H) as E. split.
    + cbn [legal]. unfold coll_res. rewrite E. exact I.
    + eexists. exists (a_mem a'). split; [|split; [intros z; reflexivity|]].
      * cbn [spec]. unfold smap, sbind, s_moves, coll_res. rewrite E. reflexivity.
      * intros o ->. auto.
  - intros a' La MO. pose proof (plan_later _ _ _ _ _ La H) as E. pose proof (la_type _ _ _ _ La _ _ H0) as T1. pose proof (la_type _ _ _ _ La _ _ H1) as T2.
    assert (BF : buffers_ok (a_mem a') S D).
    { destruct H6 as (B1 & B2 & B3). pose proof (la_mem _ _ _ _ La) as SD. split; [eapply live_domain; eauto|]. split; [eapply live_domain; eauto|exact B3]. }
    destruct (C48_lemma c CO (a_mem a') src n st es dst n' dt ed MO H2 H3 H4 H5 BF) as (m' & X & SD & Cp).
    split.
    + cbn [legal]. unfold coll_res. rewrite E. cbn [plan_res]. unfold xfer_res. rewrite T1, T2, X. exact I.
    + eexists. exists m'. split; [|split; [exact SD|]].
      * cbn [spec]. unfold smap, sbind, s_moves, coll_res. rewrite E. cbn [plan_res]. unfold xfer_res. rewrite T1, T2, X. reflexivity.
      * intros o ->. split; [reflexivity|exact Cp].
Qed.
End Told.
