(** Proofs for C104. *)
From Coq Require Import Permutation Sorted.
From Verif Require Import Base HandleSpec HandleExact TypeModel TypeSpec CopyModel CopySpec CopyProofs CopyFinal SysModel CollModel SysCalls SysSpec SysLog SysReach SysAbs
  SysFacts SysFacts2 SysFacts3 SysFacts4 SysFacts6 FirstFacts ExchangeSpec ExchangeFacts PairSpec.

(** *** The rule. *)
Section Rule.
Variable prog : list act.
Definition upon (n : nat) : list (nat * nat) * list nat := fold_left (meet prog) (seq 0 n) ([], []).
Lemma upon_S n : upon (S n) = meet prog (upon n) n.
Proof. unfold upon. rewrite seq_S, fold_left_app. reflexivity. Qed.

Lemma upon_keeps n p : (n <= length prog)%nat -> In p (fst (upon n)) -> In p (couples prog).
Proof.
  change (couples prog) with (fst (upon (length prog))). induction 1 as [|m L IH]; [auto|]. intros I. specialize (IH I). rewrite upon_S. unfold meet.
  destruct (nth_error prog m); [|exact IH]. destruct (pick _ _) as [[]|]; cbn [fst]; [apply in_or_app; left|]; exact IH.
Qed.
Lemma pick_some f : forall w j r, pick f w = Some (j, r) -> exists b e, w = b ++ j :: e /\ r = b ++ e /\ f j = true /\ forall i, In i b -> f i = false.
Proof.
  induction w as [|i w IH]; intros j r; cbn [pick]; [discriminate|]. destruct (f i) eqn:F.
  - intros H. injection H as <- <-. exists [], w. repeat split; auto. intros i0 [].
  - destruct (pick f w) as [[j0 r0]|]; [|discriminate]. intros H. injection H as <- <-. destruct (IH _ _ eq_refl) as (b & e & -> & -> & F1 & F2).
    exists (i :: b), e. repeat split; auto. intros i0 [<-|I]; auto.
Qed.
Lemma pick_none f : forall w, pick f w = None -> forall i, In i w -> f i = false.
Proof.
  induction w as [|i w IH]; cbn [pick]; intros H j I; [destruct I|]. destruct (f i) eqn:F; [discriminate|]. destruct (pick f w) as [[]|]; [discriminate|].
  destruct I as [<-|I]; auto.
Qed.
Lemma fit_sym x y : fit x y = fit y x.
Proof. unfold fit. rewrite (Z.eqb_sym (x_comm x)). destruct (_ =? _); [|reflexivity]. destruct (x_side x), (x_side y); reflexivity. Qed.
Lemma fit_sides x y : fit x y = true -> x_side y = other (x_side x).
Proof. unfold fit. destruct (_ =? _); [|discriminate]. destruct (x_side x), (x_side y); try discriminate; reflexivity. Qed.
Lemma fit_comm x y : fit x y = true -> x_comm y = x_comm x.
Proof. unfold fit. destruct (Z.eqb_spec (x_comm x) (x_comm y)); [auto|discriminate]. Qed.
Lemma fit_goes x y : x_comm y = x_comm x -> x_side y = other (x_side x) -> fit x y = goes_with (x_side x) (x_tag x) (x_tag y).
Proof. unfold fit, goes_with, accepts. intros -> ->. rewrite Z.eqb_refl. destruct (x_side x); reflexivity. Qed.

Record RI (n : nat) (ps : list (nat * nat)) (w : list nat) : Prop := {
  ri_all : Permutation (map fst ps ++ map snd ps ++ w) (seq 0 n);
  ri_fit : forall i j, In (i, j) ps -> exists x y, nth_error prog i = Some x /\ nth_error prog j = Some y /\ x_side x = Snd /\ x_side y = Rcv /\ fit x y = true;
  ri_sorted : StronglySorted lt w;
  ri_none : forall i j x y, In i w -> In j w -> nth_error prog i = Some x -> nth_error prog j = Some y -> fit x y = false;
  ri_over : forall i j i' x' y, together ps i j -> (i' < i)%nat -> nth_error prog i' = Some x' -> nth_error prog j = Some y -> fit x' y = true ->
              exists j', together ps i' j' /\ (Nat.max i' j' < Nat.max i j)%nat;
  ri_order : StronglySorted sooner ps
}.
Lemma ri_in n ps w i : RI n ps w -> (i < n)%nat <-> In i w \/ exists j, together ps i j.
Proof.
  intros H. assert (X : In i (seq 0 n) <-> (i < n)%nat) by (rewrite in_seq; lia). rewrite <- X. split.
  - intros I. apply (Permutation_in i (Permutation_sym (ri_all _ _ _ H))) in I. rewrite !in_app_iff in I. destruct I as [I|[I|I]]; [right|right|left; exact I];
      apply in_map_iff in I; destruct I as ([p q] & <- & I); [exists q; left|exists p; right]; exact I.
  - intros I. apply (Permutation_in i (ri_all _ _ _ H)). rewrite !in_app_iff. destruct I as [I|(j & [I|I])]; [auto| |].
    + left. apply in_map_iff. exists (i, j). auto.
    + right. left. apply in_map_iff. exists (j, i). auto.
Qed.
Lemma ri_lt n ps w i j : RI n ps w -> together ps i j -> (i < n /\ j < n)%nat.
Proof. intros H M. split; apply (ri_in _ _ _ _ H); right; [exists j|exists i]; destruct M; [left|right|right|left]; assumption. Qed.
Lemma ri_nodup n ps w : RI n ps w -> NoDup (map fst ps ++ map snd ps ++ w).
Proof. intros H. apply (Permutation_NoDup (Permutation_sym (ri_all _ _ _ H))), seq_NoDup. Qed.
Lemma ri_alone n ps w i j : RI n ps w -> In i w -> ~ together ps i j.
Proof.
  intros H I M. pose proof (ri_nodup _ _ _ H) as N. rewrite app_assoc in N. destruct (in_split _ _ I) as (b & e & ->). rewrite app_assoc in N. apply NoDup_remove_2 in N.
  apply N. rewrite !in_app_iff. left. left. destruct M as [M|M]; [left|right]; apply in_map_iff; eexists; (split; [|exact M]); reflexivity.
Qed.

Lemma sorted_before (b e : list nat) j i : StronglySorted lt (b ++ j :: e) -> In i (b ++ j :: e) -> (i < j)%nat -> In i b.
Proof.
  induction b as [|x b IH]; cbn [app]; intros S I L; inversion S as [|? ? S' F]; subst.
  - destruct I as [<-|I]; [lia|]. rewrite Forall_forall in F. specialize (F i I). lia.
  - destruct I as [<-|I]; [left; reflexivity|right; auto].
Qed.
Lemma sorted_drop (b e : list nat) j : StronglySorted lt (b ++ j :: e) -> StronglySorted lt (b ++ e).
Proof.
  induction b as [|x b IH]; cbn [app]; intros S; inversion S as [|? ? S' F]; subst; [exact S'|]. constructor; [auto|].
  rewrite Forall_forall in *. intros y Y. apply F. apply in_app_or in Y. apply in_or_app. destruct Y; [left|right; right]; assumption.
Qed.
Lemma sorted_snoc (w : list nat) n : StronglySorted lt w -> (forall i, In i w -> (i < n)%nat) -> StronglySorted lt (w ++ [n]).
Proof.
  induction w as [|x w IH]; cbn [app]; intros S L; [repeat constructor|]. inversion S as [|? ? S' F]; subst. constructor; [apply IH; auto; intros; apply L; right; auto|].
  rewrite Forall_forall in *. intros y Y. apply in_app_or in Y. destruct Y as [Y|[<-|[]]]; [auto|apply L; left; reflexivity].
Qed.

Lemma perm_out {A} (l m r : list A) p q : Permutation (l ++ p :: m ++ q :: r) (p :: q :: l ++ m ++ r).
Proof. rewrite <- Permutation_middle. apply perm_skip. rewrite !app_assoc. symmetry. apply Permutation_middle. Qed.
(** The two ways a step goes. *)
Lemma ri_queue n ps w x : RI n ps w -> nth_error prog n = Some x -> pick (fits_at prog x) w = None -> RI (S n) ps (w ++ [n]).
Proof.
  intros H X K. pose proof (pick_none _ _ K) as No. constructor.
  - rewrite seq_S. cbn [plus]. rewrite !app_assoc. apply Permutation_app_tail. rewrite <- app_assoc. exact (ri_all _ _ _ H).
  - exact (ri_fit _ _ _ H).
  - apply sorted_snoc; [exact (ri_sorted _ _ _ H)|]. intros i I. apply (ri_in _ _ _ _ H). auto.
  - assert (G : forall i y, In i w -> nth_error prog i = Some y -> fit x y = false).
    { intros i y I Y. specialize (No i I). unfold fits_at in No. rewrite Y in No. exact No. }
    intros i j y z I J Y Z. apply in_app_or in I. apply in_app_or in J. destruct I as [I|[<-|[]]], J as [J|[<-|[]]].
    + exact (ri_none _ _ _ H i j y z I J Y Z).
    + rewrite X in Z. injection Z as <-. rewrite fit_sym. eauto.
    + rewrite X in Y. injection Y as <-. eauto.
    + rewrite X in Y, Z. injection Y as <-. injection Z as <-. unfold fit. destruct (_ =? _); [|reflexivity]. destruct (x_side x); reflexivity.
  - exact (ri_over _ _ _ H).
  - exact (ri_order _ _ _ H).
Qed.
Lemma ord_snoc (l : list (nat * nat)) p : StronglySorted sooner l -> (forall q, In q l -> sooner q p) -> StronglySorted sooner (l ++ [p]).
Proof.
  induction l as [|x l IH]; cbn [app]; intros S L; [repeat constructor|]. inversion S as [|? ? S' F]; subst. constructor; [apply IH; auto; intros; apply L; right; auto|].
  rewrite Forall_forall in *. intros y Y. apply in_app_or in Y. destruct Y as [Y|[<-|[]]]; [auto|apply L; left; reflexivity].
Qed.
Lemma ri_meet n ps b j e x : RI n ps (b ++ j :: e) -> nth_error prog n = Some x -> fits_at prog x j = true -> (forall i, In i b -> fits_at prog x i = false) ->
  RI (S n) (ps ++ [pair_of x n j]) (b ++ e).
Proof.
  intros H X F N. assert (Y : exists y, nth_error prog j = Some y /\ fit x y = true).
  { unfold fits_at in F. destruct (nth_error prog j) as [y|]; [eauto|discriminate]. }
  destruct Y as (y & Y & FY). pose proof (fit_sides _ _ FY) as SY. pose proof (fit_comm _ _ FY) as CY.
  assert (Jw : In j (b ++ j :: e)) by (apply in_or_app; right; left; reflexivity).
  assert (Jn : (j < n)%nat) by (apply (ri_in _ _ _ _ H); auto).
  assert (MP : forall p q, together (ps ++ [pair_of x n j]) p q <-> together ps p q \/ (p = n /\ q = j) \/ (p = j /\ q = n)).
  { intros p q. unfold together, pair_of. rewrite !in_app_iff. cbn [In]. destruct (x_side x); split; intros Q;
      repeat match goal with Q : _ \/ _ |- _ => destruct Q end; try contradiction; try (injection H0 as <- <-); try (destruct H0 as [-> ->]); auto 8. }
  constructor.
  - rewrite seq_S. cbn [plus]. rewrite <- (ri_all _ _ _ H), !map_app. cbn [map]. rewrite <- !app_assoc. cbn [app].
    rewrite perm_out.
    assert (R : Permutation (map fst ps ++ map snd ps ++ b ++ j :: e ++ [n]) (n :: j :: map fst ps ++ map snd ps ++ b ++ e)).
    { pose proof (perm_out (map fst ps ++ map snd ps ++ b) e [] j n) as Q. rewrite app_nil_r, <- !app_assoc in Q. rewrite Q. apply perm_swap. }
    rewrite R. unfold pair_of. destruct (x_side x); cbn [fst snd]; [apply Permutation_refl|apply perm_swap].
  - intros p q I. apply in_app_or in I. destruct I as [I|[I|[]]]; [exact (ri_fit _ _ _ H _ _ I)|]. unfold pair_of in I.
    destruct (x_side x) eqn:SX; cbn [other] in SY; injection I as <- <-; [exists x, y|exists y, x]; repeat split; auto. rewrite fit_sym; exact FY.
  - exact (sorted_drop _ _ _ (ri_sorted _ _ _ H)).
  - intros p q y1 z I J. apply (ri_none _ _ _ H); apply in_or_app; apply in_app_or in I, J; [destruct I|destruct J]; auto; right; right; assumption.
  - intros p q p' x' z M L X' Z FZ. apply MP in M.
    assert (Old : forall q', together ps p' q' -> exists q', together (ps ++ [pair_of x n j]) p' q' /\ (Nat.max p' q' < Nat.max n j)%nat).
    { intros q' M'. exists q'. split; [apply MP; auto|]. pose proof (ri_lt _ _ _ _ _ H M'). lia. }
    destruct M as [M|[[-> ->]|[-> ->]]].
    + destruct (ri_over _ _ _ H p q p' x' z M L X' Z FZ) as (q' & M' & L'). exists q'. split; [apply MP; auto|exact L'].
    + rewrite Y in Z. injection Z as <-. destruct (proj1 (ri_in _ _ _ p' H) L) as [I|(q' & M')]; [|eauto].
      rewrite (ri_none _ _ _ H p' j x' y I Jw X' Y) in FZ. discriminate.
    + rewrite X in Z. injection Z as <-. destruct (proj1 (ri_in _ _ _ p' H) ltac:(lia)) as [I|(q' & M')].
      * pose proof (sorted_before _ _ _ _ (ri_sorted _ _ _ H) I L) as Ib. specialize (N p' Ib). unfold fits_at in N. rewrite X', fit_sym, FZ in N. discriminate.
      * rewrite Nat.max_comm. eauto.
  - apply ord_snoc; [exact (ri_order _ _ _ H)|]. intros [p q] I. pose proof (ri_lt _ _ _ _ _ H (or_introl I)). unfold sooner, pair_of. destruct (x_side x); cbn [fst snd]; lia.
Qed.
Lemma ri_run : forall n, (n <= length prog)%nat -> RI n (fst (upon n)) (snd (upon n)).
Proof.
  induction n as [|n IH]; intros L.
  - constructor; try solve [constructor]; try solve [intros ? ? []].
    + intros i j x y [].
    + intros i j i' x' y [[]|[]].
  - specialize (IH ltac:(lia)). rewrite upon_S. unfold meet. destruct (nth_error prog n) as [x|] eqn:X; [|apply nth_error_None in X; lia].
    destruct (pick _ _) as [[j r]|] eqn:K; cbn [fst snd].
    + destruct (pick_some _ _ _ _ K) as (b & e & E & -> & F & N). rewrite E in IH. apply ri_meet; auto.
    + eapply ri_queue; eauto.
Qed.
End Rule.

(** The pairs of the first operations come first. *)
Lemma skip_app {A} (l m : list A) : skipn (length l) (l ++ m) = m.
Proof. induction l as [|x l IH]; [reflexivity|exact IH]. Qed.
Lemma upon_grows prog n k : exists d, fst (upon prog (n + k)) = fst (upon prog n) ++ d.
Proof.
  induction k as [|k IH]; [rewrite Nat.add_0_r; exists []; symmetry; apply app_nil_r|]. destruct IH as (d & E). rewrite Nat.add_succ_r, upon_S. unfold meet.
  destruct (nth_error prog (n + k)) as [x|]; [|eauto]. destruct (pick _ _) as [[j r]|]; cbn [fst]; [|eauto]. rewrite E, <- app_assoc. eauto.
Qed.
Lemma pairs_between prog n m k : (n <= m)%nat -> (m <= k)%nat ->
  skipn (length (fst (upon prog n))) (fst (upon prog k)) = skipn (length (fst (upon prog n))) (fst (upon prog m)) ++ skipn (length (fst (upon prog m))) (fst (upon prog k)).
Proof.
  intros L1 L2. replace k with (m + (k - m))%nat by lia. destruct (upon_grows prog m (k - m)) as (d & ->). replace m with (n + (m - n))%nat by lia. destruct (upon_grows prog n (m - n)) as (e & ->).
  rewrite <- app_assoc, !skip_app, app_assoc, skip_app. reflexivity.
Qed.

(** *** Memory. *)
Lemma turn_app c prog : forall l l' m m', in_turn c prog (l ++ l') m m' <-> exists m1, in_turn c prog l m m1 /\ in_turn c prog l' m1 m'.
Proof.
  induction l as [|[i j] l IH]; intros l' m m'; cbn [app in_turn].
  - split; [intros H; exists m; auto|intros (m1 & -> & H); exact H].
  - split.
    + intros (x & y & m1 & X & Y & SD & Cp & H). apply IH in H. destruct H as (m2 & H1 & H2). exists m2. split; [exists x, y, m1; auto|exact H2].
    + intros (m2 & (x & y & m1 & X & Y & SD & Cp & H1) & H2). exists x, y, m1. do 4 (split; [assumption|]). apply IH. exists m2. auto.
Qed.
Lemma turn_snoc c prog l i j x y m m1 m' : in_turn c prog l m m1 -> nth_error prog i = Some x -> nth_error prog j = Some y ->
  same_domain m1 m' -> copied m1 m' (taken c i j x y) (area c y) -> in_turn c prog (l ++ [(i, j)]) m m'.
Proof. intros H X Y SD Cp. apply turn_app. exists m1. split; [exact H|]. exists x, y, m'. repeat split; auto; apply SD || apply Cp. Qed.
Lemma turn_domain c prog : forall l m m', in_turn c prog l m m' -> same_domain m m'.
Proof.
  induction l as [|[i j] l IH]; intros m m'; cbn [in_turn]; [intros ->; intros z; reflexivity|].
  intros (x & y & m1 & _ & _ & SD & _ & H). apply IH in H. intros z. rewrite (SD z). apply H.
Qed.
(** *** The calls. *)
Section Run.
Variable c : cfg.
Variable tj : Z -> tjunk.
Notation reach := (reach c tj).
Notation does := (does c tj).
Variables (a0 : astate) (m0 : mem) (prog : list act).
Hypothesis CO : cfg_ok c.
Hypothesis MO : mem_ok m0.
Hypothesis OK : acts_ok c a0 m0 prog.
Hypothesis N0 : a_obj a0 MPI_REQUEST_NULL = None.
Notation ar := (area c).
Notation RI := (RI prog).

Definition said (ps : list (nat * nat)) (w : list nat) (i : nat) (q : areq) : Prop :=
  (In i w /\ report q = None) \/
  (exists j, In (i, j) ps /\ report q = Some (Write None None)) \/
  (exists j y, In (j, i) ps /\ nth_error prog j = Some y /\ report q = Some (Write (Some 0) (Some (x_tag y)))).
(** [dn]: the operations waited for, whose request is MPI_REQUEST_NULL now. *)
Record J (n : nat) (ps : list (nat * nat)) (w dn : list nat) (hs : list Z) (s : sys) (a : astate) (P : Z -> side -> list pend) : Prop := {
  j_reach : reach s a;
  j_comm : forall cm k, comm_at a0 cm = Some k -> comm_at a cm = Some (mkAcomm (k_uid k) (k_sends k ++ P cm Snd) (k_recvs k ++ P cm Rcv));
  j_waits : forall cm sd, Forall2 (waits_for prog hs cm sd) (filter (on_side prog cm sd) w) (P cm sd);
  j_dom : same_domain m0 (s_mem s);
  j_req : forall i h, nth_error hs i = Some h -> ~ In i dn -> 1 <= h /\ a_obj a0 h = None /\ exists q, req_at a h = Some q /\ said ps w i q;
  j_null : forall i h, nth_error hs i = Some h -> In i dn -> h = MPI_REQUEST_NULL;
  j_done : forall i, In i dn -> (i < n)%nat /\ ~ In i w;
  j_inj : forall i j h, nth_error hs i = Some h -> nth_error hs j = Some h -> ~ In i dn -> i = j;
  j_rest : forall x, ~ In x hs -> comm_at a0 x = None -> a_obj a x = a_obj a0 x;
  j_len : length hs = n;
  j_left : handles_left a0 - Z.of_nat n <= handles_left a;
  j_items : a_items a <= a_items a0 + Z.of_nat n
}.
Section Inv.
Variables (n : nat) (ps : list (nat * nat)) (w dn : list nat) (hs : list Z) (s : sys) (a : astate) (P : Z -> side -> list pend).
Hypothesis H : J n ps w dn hs s a P.
Hypothesis HR : RI n ps w.
Notation "f !" := (f _ _ _ _ _ _ _ _ H) (at level 10, only parsing).

Lemma j_old x : In x hs -> a_obj a0 x = None.
Proof.
  intros I. apply In_nth_error in I. destruct I as (i & I). destruct (in_dec Nat.eq_dec i dn) as [D|D]; [rewrite (j_null ! i x I D); exact N0|].
  destruct (j_req ! i x I D) as (X1 & X2 & _). auto.
Qed.
Lemma j_fresh h : 1 <= h -> a_obj a h = None -> ~ In h hs.
Proof.
  intros F1 F2 Hh. apply In_nth_error in Hh. destruct Hh as (i & Hh). destruct (in_dec Nat.eq_dec i dn) as [D|D].
  - pose proof (j_null ! i h Hh D). unfold MPI_REQUEST_NULL in *. lia.
  - destruct (j_req ! i h Hh D) as (_ & _ & q & Q & _). unfold req_at in Q. rewrite F2 in Q. discriminate.
Qed.
Lemma j_null' h i h' : nth_error (hs ++ [h]) i = Some h' -> In i dn -> h' = MPI_REQUEST_NULL.
Proof.
  intros E D. destruct (j_done ! i D) as [Li _]. rewrite nth_error_app1 in E by (rewrite (j_len !); exact Li). exact (j_null ! i h' E D).
Qed.
Lemma j_inj' h : ~ In h hs -> forall i j x, nth_error (hs ++ [h]) i = Some x -> nth_error (hs ++ [h]) j = Some x -> ~ In i dn -> i = j.
Proof.
  assert (S : forall i y, nth_error (hs ++ [h]) i = Some y -> nth_error hs i = Some y \/ (i = length hs /\ y = h)).
  { intros i y E. destruct (Nat.lt_ge_cases i (length hs)) as [L|L]; [rewrite nth_error_app1 in E by exact L; auto|]. rewrite nth_error_app2 in E by exact L.
    destruct (i - length hs)%nat as [|d] eqn:D; [injection E as <-; right; split; [lia|reflexivity]|destruct d; discriminate]. }
  intros Nh i j x I J D. apply S in I, J. destruct I as [I|[-> ->]], J as [J|[-> E]].
  - exact (j_inj ! i j x I J D).
  - subst x. destruct Nh. exact (nth_error_In _ _ I).
  - destruct Nh. exact (nth_error_In _ _ J).
  - reflexivity.
Qed.
Lemma j_obj x o : a_obj a0 x = Some o -> comm_at a0 x = None -> a_obj a x = Some o.
Proof. intros E N. rewrite (j_rest !); auto. intros I. apply j_old in I. congruence. Qed.
Lemma j_type ty ts : type_at c a0 ty = Some ts -> type_at c a ty = Some ts.
Proof.
  intros T. unfold type_at in *. destruct (_ <? 0); [exact T|].
  destruct (a_obj a0 ty) as [[ | |t]|] eqn:E; try discriminate. rewrite (j_obj _ _ E); [exact T|].
  unfold comm_at. rewrite E. reflexivity.
Qed.
Lemma cm_not cm k : comm_at a0 cm = Some k -> ~ In cm hs.
Proof. intros K0 I. apply j_old in I. unfold comm_at in K0. rewrite I in K0. discriminate. Qed.
Lemma j_bufs S D : buffers_ok m0 S D -> buffers_ok (s_mem s) S D.
Proof.
  intros (B1 & B2 & B3 & B4). pose proof (j_dom !) as SD. unfold buffers_ok. split; [eapply live_domain; eauto|]. split; [eapply live_domain; eauto|]. auto.
Qed.
Lemma waits_more cm sd h u Q : Forall2 (waits_for prog hs cm sd) u Q -> Forall2 (waits_for prog (hs ++ [h]) cm sd) u Q.
Proof.
  intros F. induction F as [|i p u Q W F IH]; constructor; auto. destruct W as (x & W1 & W0 & W2 & W3 & W4). exists x. split; [exact W1|]. split; [exact W0|]. split; [exact W2|]. split; [|exact W4].
  rewrite nth_error_app1; [exact W3|]. apply nth_error_Some. congruence.
Qed.
Lemma side_line cm k sd k' : comm_at a0 cm = Some k -> comm_at a cm = Some k' -> line sd k' = line sd k ++ P cm sd.
Proof. intros K0 E. rewrite (j_comm ! cm k K0) in E. injection E as <-. destruct sd; reflexivity. Qed.
End Inv.
Lemma act_uses x s a o s' a' : does s a (act_call x) o s' a' -> uses a a'.
Proof.
  intros (_ & _ & _ & Q & E & _). unfold act_call in E; destruct (x_side x); cbn [spec] in E; unfold smap, sbind in E.
  - destruct (s_isend _ _ _ _ _ _ _ a) as [h b'| |] eqn:X; try discriminate. injection E as _ <-. eapply isend_uses; eauto.
  - destruct (s_irecv _ _ _ _ _ _ _ a) as [h b'| |] eqn:X; try discriminate. injection E as _ <-. eapply irecv_uses; eauto.
Qed.
Lemma on_side_ok i x cm sd : nth_error prog i = Some x -> on_side prog cm sd i = (x_comm x =? cm) && same_side (x_side x) sd.
Proof. intros X. unfold on_side. rewrite X. reflexivity. Qed.
Lemma nth_snoc {A} (l : list A) x i y : nth_error (l ++ [x]) i = Some y -> nth_error l i = Some y \/ (i = length l /\ y = x).
Proof.
  intros E. destruct (Nat.lt_ge_cases i (length l)) as [L|L]; [rewrite nth_error_app1 in E by exact L; auto|]. rewrite nth_error_app2 in E by exact L.
  destruct (i - length l)%nat as [|d] eqn:D; [injection E as <-; right; split; [lia|reflexivity]|destruct d; discriminate].
Qed.

(** A partner waits: the message is moved. *)
Lemma step_paired n ps b j e dn hs s a P x : J n ps (b ++ j :: e) dn hs s a P -> RI n ps (b ++ j :: e) -> nth_error prog n = Some x ->
  fits_at prog x j = true -> (forall i, In i b -> fits_at prog x i = false) -> In (pair_of x n j) (couples prog) -> 0 < handles_left a -> room a ->
  exists h s' a' P', does s a (act_call x) (VInt h) s' a' /\ in_turn c prog [pair_of x n j] (s_mem s) (s_mem s') /\ J (S n) (ps ++ [pair_of x n j]) (b ++ e) dn (hs ++ [h]) s' a' P'.
Proof.
  intros H HR X F N CP HL Rm. pose proof (j_reach _ _ _ _ _ _ _ _ H) as R. pose proof (left_has _ _ _ _ R HL) as HH.
  assert (Y : exists y, nth_error prog j = Some y /\ fit x y = true) by (unfold fits_at in F; destruct (nth_error prog j) as [y|]; [eauto|discriminate]).
  destruct Y as (y & Y & FY). pose proof (fit_sides _ _ FY) as SY. pose proof (fit_comm _ _ FY) as CY.
  assert (Jw : In j (b ++ j :: e)) by (apply in_or_app; right; left; reflexivity).
  assert (Jn : (j < n)%nat) by (apply (ri_in _ _ _ _ _ HR); auto).
  pose proof (nth_error_In _ _ X) as Ix. pose proof (nth_error_In _ _ Y) as Iy.
  destruct (ao_comm _ _ _ _ OK x Ix) as (k & K0).
  set (sd := x_side x) in *. set (cm := x_comm x) in *.
  pose proof (j_waits _ _ _ _ _ _ _ _ H cm (other sd)) as FW. rewrite filter_app in FW. cbn [filter] in FW.
  assert (Oj : on_side prog cm (other sd) j = true) by (rewrite (on_side_ok j y) by exact Y; rewrite SY, CY, Z.eqb_refl; destruct sd; reflexivity).
  assert (Oj' : on_side prog cm sd j = false) by (rewrite (on_side_ok j y) by exact Y; rewrite SY, CY, Z.eqb_refl; destruct sd; reflexivity).
  assert (Oj2 : forall cm' z, cm' <> cm -> on_side prog cm' z j = false) by (intros cm' z NE; rewrite (on_side_ok j y) by exact Y; rewrite CY; apply not_eq_sym, Z.eqb_neq in NE; rewrite NE; reflexivity).
  rewrite Oj in FW. apply Forall2_app_inv_l in FW. destruct FW as (Pb & Q & Fb & FQ & EP). inversion FQ as [|j1 p e1 Pe Wp Fe E1 E2]. subst j1 e1 Q. clear FQ.
  destruct Wp as (y1 & Y1 & _ & _ & Rp & B1 & T1 & C1 & Ty1). assert (y1 = y) by congruence. subst y1. clear Y1.
  set (k' := mkAcomm (k_uid k) (k_sends k ++ P cm Snd) (k_recvs k ++ P cm Rcv)). assert (Ek : comm_at a cm = Some k') by exact (j_comm _ _ _ _ _ _ _ _ H cm k K0).
  pose proof (side_line _ _ _ _ _ _ _ _ H cm k (other sd) k' K0 Ek) as Lk. rewrite EP, app_assoc in Lk.
  assert (Ea : earliest sd (x_tag x) k' (line (other sd) k ++ Pb) p Pe).
  { split; [exact Lk|]. split; [unfold sd; rewrite T1, <- (fit_goes x y CY SY); exact FY|]. intros q Hq. apply in_app_or in Hq. destruct Hq as [Hq|Hq].
    - apply (ao_alone _ _ _ _ OK x k q (nth_error_In _ _ X) K0 Hq).
    - assert (G : exists i, In i (filter (on_side prog cm (other sd)) b) /\ waits_for prog hs cm (other sd) i q).
      { clear - Fb Hq. induction Fb as [|i q0 l l' W Fb IH]; [destruct Hq|]. destruct Hq as [<-|Hq]; [exists i; split; [left; reflexivity|exact W]|].
        destruct (IH Hq) as (i' & I1 & I2). exists i'. split; [right; exact I1|exact I2]. }
      destruct G as (i & I & z & Zi & CZ & SZ & _ & _ & TZ & _). apply filter_In in I. destruct I as [I _]. specialize (N i I). unfold fits_at in N. rewrite Zi in N.
      unfold sd; rewrite TZ, <- (fit_goes x z CZ SZ). exact N. }
  assert (MO' : mem_ok (s_mem s)) by (eapply mem_ok_domain; [exact (j_dom _ _ _ _ _ _ _ _ H)|exact MO]).
  assert (exists m' h s' a', in_turn c prog [pair_of x n j] (s_mem s) m' /\
            does s a (act_call x) (VInt h) s' a' /\
            s_mem s' = m' /\ paired sd a cm k' (a_clock a) h (x_tag x) (line (other sd) k ++ Pb) p Pe m' a') as (m' & h & s' & a' & Tn & Do & Em & PR).
  { unfold act_call, pair_of in CP |- *. fold sd cm in CP |- *. destruct sd eqn:SX; cbn [other] in SY.
    - pose proof (ao_pair _ _ _ _ OK n j x y CP X Y) as PO. assert (De : described n j x y = x) by (unfold described; rewrite (proj2 (Nat.ltb_lt j n) Jn); reflexivity).
      destruct PO as [T1' T2' TX AG FT FT' BF]. unfold taken in BF. rewrite De in *.
      destruct (C31_lemma s a (x_buf x) (x_count x) (x_type x) (x_ts x) (x_ext x) (x_tag x) cm k' _ p Pe (x_ts y) (x_ext y) R HH Rm Ek Ea CO MO' (j_type _ _ _ _ _ _ _ _ H _ _ T1')) as (m' & SD & Cp & (h & s' & a' & Do & Em & PR) & _).
      + rewrite Ty1. exact (j_type _ _ _ _ _ _ _ _ H _ _ T2').
      + rewrite C1. exact TX.
      + rewrite C1. exact AG.
      + exact FT.
      + rewrite C1. exact FT'.
      + rewrite C1, B1. apply (j_bufs _ _ _ _ _ _ _ _ H). exact BF.
      + rewrite C1, B1 in Cp. exists m', h, s', a'. split; [|auto]. apply (turn_snoc c prog [] n j x y (s_mem s) (s_mem s)); auto; [reflexivity|]. unfold taken. rewrite De. exact Cp.
    - pose proof (ao_pair _ _ _ _ OK j n y x CP Y X) as PO. assert (De : described j n y x = x) by (unfold described; rewrite (proj2 (Nat.ltb_ge n j) ltac:(lia)); reflexivity).
      destruct PO as [T1' T2' TX AG FT FT' BF]. unfold taken in BF. rewrite De in *.
      destruct (C32_first_lemma s a (x_buf x) (x_count x) (x_type x) (x_ts x) (x_ext x) (x_src x) (x_tag x) cm k' _ p Pe R HH Rm Ek (ao_source _ _ _ _ OK x Ix SX) Ea CO MO' (j_type _ _ _ _ _ _ _ _ H _ _ T1') TX FT) as (m' & SD & Cp & (h & s' & a' & Do & Em & PR) & _).
      + rewrite B1. apply (j_bufs _ _ _ _ _ _ _ _ H). exact BF.
      + rewrite B1 in Cp. exists m', h, s', a'. split; [|auto]. apply (turn_snoc c prog [] j n y x (s_mem s) (s_mem s)); auto; [reflexivity|]. unfold taken. rewrite De. exact Cp. }
  exists h, s', a', (fun cm' z => if cm' =? cm then if same_side z sd then P cm sd else Pb ++ Pe else P cm' z). split; [exact Do|]. split; [rewrite Em; exact Tn|].
  assert (Nn : forall q, ~ together ps n q) by (intros q M; pose proof (ri_lt _ _ _ _ _ _ HR M); lia).
  assert (Nj : forall q, ~ together ps j q) by (intros q; apply (ri_alone _ _ _ _ _ _ HR Jw)).
  pose proof (proj1 (pr_fresh _ _ _ _ _ _ _ _ _ _ _ _ PR)) as F1. pose proof (proj2 (pr_fresh _ _ _ _ _ _ _ _ _ _ _ _ PR)) as F2.
  pose proof (j_fresh _ _ _ _ _ _ _ _ H h F1 F2) as Nh.
  assert (Ncm : comm_at a0 h = None).
  { destruct (comm_at a0 h) as [k0|] eqn:E; [|reflexivity]. pose proof (j_comm _ _ _ _ _ _ _ _ H h k0 E) as E1. unfold comm_at in E1. rewrite F2 in E1. discriminate. }
  pose proof (pr_rest _ _ _ _ _ _ _ _ _ _ _ _ PR) as RS.
  pose proof (act_uses _ _ _ _ _ _ Do) as [U1 U2].
  constructor.
  - apply Do.
  - intros cm' k0 K1. destruct (Z.eqb_spec cm' cm) as [->|NE].
    + assert (k0 = k) by congruence. subst k0. rewrite (pr_comm _ _ _ _ _ _ _ _ _ _ _ _ PR). rewrite app_assoc_reverse. destruct sd; reflexivity.
    + pose proof (j_comm _ _ _ _ _ _ _ _ H cm' k0 K1) as E1. unfold comm_at in *. rewrite RS; [exact E1| |exact NE|].
      * intros ->. rewrite F2 in E1. discriminate.
      * intros ->. exact (cm_not _ _ _ _ _ _ _ _ H _ _ K1 (nth_error_In _ _ Rp)).
  - intros cm' z. destruct (Z.eqb_spec cm' cm) as [->|NE].
    2:{ apply waits_more. pose proof (j_waits _ _ _ _ _ _ _ _ H cm' z) as FS. rewrite filter_app in *. cbn [filter] in FS. rewrite (Oj2 cm' z NE) in FS. exact FS. }
    destruct (same_side z sd) eqn:E.
    + apply same_side_eq in E. subst z. apply waits_more. pose proof (j_waits _ _ _ _ _ _ _ _ H cm sd) as FS. rewrite filter_app in *. cbn [filter] in FS. rewrite Oj' in FS. exact FS.
    + assert (z = other sd) by (destruct z, sd; try reflexivity; discriminate). subst z. rewrite filter_app. apply waits_more. apply Forall2_app; assumption.
  - rewrite Em. intros z. rewrite (j_dom _ _ _ _ _ _ _ _ H z). exact (turn_domain _ _ _ _ _ Tn z).
  - intros i h' Hi Di. apply nth_snoc in Hi. rewrite (j_len _ _ _ _ _ _ _ _ H) in Hi. destruct Hi as [Hi|[-> ->]].
    + destruct (j_req _ _ _ _ _ _ _ _ H i h' Hi Di) as (X1 & X2 & q & Q & SQ). split; [exact X1|]. split; [exact X2|].
      destruct (Nat.eq_dec i j) as [->|NE].
      * assert (h' = p_req p) by congruence. subst h'. pose proof (pr_partner _ _ _ _ _ _ _ _ _ _ _ _ PR) as YR. eexists. split; [exact YR|]. right.
        unfold pair_of. fold sd. destruct sd; cbn [other done_req msg_tag report]; [right; exists n, x|left; exists n];
          (split; [apply in_or_app; right; left; reflexivity|]); auto.
      * assert (NP : h' <> p_req p).
        { intros ->. apply NE. exact (j_inj _ _ _ _ _ _ _ _ H i j _ Hi Rp Di). }
        assert (YR : a_obj a' h' = a_obj a h').
        { apply RS; [intros ->; apply Nh; exact (nth_error_In _ _ Hi)| |exact NP]. intros ->. apply (cm_not _ _ _ _ _ _ _ _ H cm k K0). exact (nth_error_In _ _ Hi). }
        exists q. split; [unfold req_at in *; rewrite YR; exact Q|]. destruct SQ as [[I Q1]|[(q1 & I & Q1)|(q1 & z & I & Z1 & Q1)]].
        -- left. split; [|exact Q1]. apply in_app_or in I. apply in_or_app. destruct I as [I|[I|I]]; auto. congruence.
        -- right. left. exists q1. split; [apply in_or_app; auto|exact Q1].
        -- right. right. exists q1, z. split; [apply in_or_app; auto|auto].
    + split; [exact F1|]. split.
      * rewrite <- (j_rest _ _ _ _ _ _ _ _ H h Nh Ncm). exact F2.
      * pose proof (pr_req _ _ _ _ _ _ _ _ _ _ _ _ PR) as YR. eexists. split; [exact YR|]. right. rewrite T1.
        unfold pair_of. fold sd. destruct sd; cbn [done_req msg_tag report]; [left; exists j|right; exists j, y];
          (split; [apply in_or_app; right; left; reflexivity|]); auto.
  - exact (j_null' _ _ _ _ _ _ _ _ H h).
  - intros i Di. destruct (j_done _ _ _ _ _ _ _ _ H i Di) as [D1 D2]. split; [lia|]. intros I. apply D2. apply in_or_app. apply in_app_or in I. destruct I as [I|I]; [left; exact I|right; right; exact I].
  - exact (j_inj' _ _ _ _ _ _ _ _ H h Nh).
  - intros z Hz Nz. rewrite in_app_iff in Hz. cbn [In] in Hz. rewrite RS; [apply (j_rest _ _ _ _ _ _ _ _ H); tauto|intros ->; tauto|intros ->; congruence|].
    intros ->. apply Hz. left. exact (nth_error_In _ _ Rp).
  - rewrite app_length, (j_len _ _ _ _ _ _ _ _ H). cbn [length]. lia.
  - pose proof (j_left _ _ _ _ _ _ _ _ H). lia.
  - pose proof (j_items _ _ _ _ _ _ _ _ H). lia.
Qed.

(** Nobody waits: the operation is queued. *)
Lemma step_queued n ps w dn hs s a P x : J n ps w dn hs s a P -> RI n ps w -> nth_error prog n = Some x ->
  pick (fits_at prog x) w = None -> 0 < handles_left a -> room a ->
  exists h s' a' P', does s a (act_call x) (VInt h) s' a' /\ s_mem s' = s_mem s /\ J (S n) ps (w ++ [n]) dn (hs ++ [h]) s' a' P'.
Proof.
  intros H HR X K HL Rm. pose proof (j_reach _ _ _ _ _ _ _ _ H) as R. pose proof (left_has _ _ _ _ R HL) as HH. pose proof (pick_none _ _ K) as No. pose proof (nth_error_In _ _ X) as Ix.
  destruct (ao_comm _ _ _ _ OK x Ix) as (k & K0).
  set (sd := x_side x) in *. set (cm := x_comm x) in *.
  set (k' := mkAcomm (k_uid k) (k_sends k ++ P cm Snd) (k_recvs k ++ P cm Rcv)). assert (Ek : comm_at a cm = Some k') by exact (j_comm _ _ _ _ _ _ _ _ H cm k K0).
  pose proof (side_line _ _ _ _ _ _ _ _ H cm k (other sd) k' K0 Ek) as Lk. pose proof (side_line _ _ _ _ _ _ _ _ H cm k sd k' K0 Ek) as Lo.
  assert (NG : none_goes sd (x_tag x) k').
  { intros q Hq. rewrite Lk in Hq. apply in_app_or in Hq. destruct Hq as [Hq|Hq].
    - apply (ao_alone _ _ _ _ OK x k q (nth_error_In _ _ X) K0 Hq).
    - assert (G : exists i, In i (filter (on_side prog cm (other sd)) w) /\ waits_for prog hs cm (other sd) i q).
      { pose proof (j_waits _ _ _ _ _ _ _ _ H cm (other sd)) as Fb. clear - Fb Hq. induction Fb as [|i q0 l l' W Fb IH]; [destruct Hq|].
        destruct Hq as [<-|Hq]; [exists i; split; [left; reflexivity|exact W]|].
        destruct (IH Hq) as (i' & I1 & I2). exists i'. split; [right; exact I1|exact I2]. }
      destruct G as (i & I & z & Zi & CZ & SZ & _ & _ & TZ & _). apply filter_In in I. destruct I as [I _]. specialize (No i I). unfold fits_at in No. rewrite Zi in No.
      unfold sd; rewrite TZ, <- (fit_goes x z CZ SZ). exact No. }
  assert (exists h s' a', does s a (act_call x) (VInt h) s' a' /\ queued sd a cm k' (mkPend (a_clock a) h (x_buf x) (x_count x) (x_type x) (x_tag x)) a') as (h & s' & a' & Do & QD).
  { unfold act_call. fold sd cm. destruct sd eqn:SX.
    - destruct (C10_lemma s a (x_buf x) (x_count x) (x_type x) (x_tag x) cm k' R HH Rm Ek) as [_ Z]. apply Z. exact NG.
    - destruct (C09_lemma s a (x_buf x) (x_count x) (x_type x) (x_src x) (x_tag x) cm k' R HH Rm Ek (ao_source _ _ _ _ OK x Ix SX)) as [_ Z]. apply Z. exact NG. }
  set (p := mkPend (a_clock a) h (x_buf x) (x_count x) (x_type x) (x_tag x)) in *.
  exists h, s', a', (fun cm' z => if cm' =? cm then if same_side z sd then P cm sd ++ [p] else P cm z else P cm' z). split; [exact Do|].
  pose proof (proj1 (qd_fresh _ _ _ _ _ _ QD)) as F1. pose proof (proj2 (qd_fresh _ _ _ _ _ _ QD)) as F2. cbn [p p_req] in F1, F2.
  pose proof (j_fresh _ _ _ _ _ _ _ _ H h F1 F2) as Nh.
  assert (Ncm : comm_at a0 h = None).
  { destruct (comm_at a0 h) as [k0|] eqn:E; [|reflexivity]. pose proof (j_comm _ _ _ _ _ _ _ _ H h k0 E) as E1. unfold comm_at in E1. rewrite F2 in E1. discriminate. }
  pose proof (qd_rest _ _ _ _ _ _ QD) as RS. cbn [p p_req] in RS.
  pose proof (act_uses _ _ _ _ _ _ Do) as [U1 U2].
  assert (Mm : s_mem s' = s_mem s).
  { destruct Do as (_ & _ & R' & _). rewrite (ab_mem (reach_abs _ _ R')), (ab_mem (reach_abs _ _ R)). apply (qd_mem _ _ _ _ _ _ QD). }
  split; [exact Mm|].
  assert (On : forall cm' z, on_side prog cm' z n = (cm =? cm') && same_side sd z) by (intros cm' z; apply on_side_ok; exact X).
  constructor.
  - apply Do.
  - intros cm' k0 K1. destruct (Z.eqb_spec cm' cm) as [->|NE].
    2:{ pose proof (j_comm _ _ _ _ _ _ _ _ H cm' k0 K1) as E1. unfold comm_at in *. rewrite RS; [exact E1| |exact NE]. intros ->. rewrite F2 in E1. discriminate. }
    assert (k0 = k) by congruence. subst k0. rewrite (qd_comm _ _ _ _ _ _ QD). unfold set_line. rewrite Lo. destruct sd; cbn [same_side line k' k_uid k_sends k_recvs]; rewrite app_assoc_reverse; reflexivity.
  - intros cm' z. rewrite filter_app. cbn [filter]. rewrite On. destruct (Z.eqb_spec cm' cm) as [->|NE].
    2:{ apply not_eq_sym, Z.eqb_neq in NE. rewrite NE. cbn [andb]. rewrite app_nil_r. apply waits_more. exact (j_waits _ _ _ _ _ _ _ _ H cm' z). }
    rewrite Z.eqb_refl. cbn [andb]. destruct (same_side z sd) eqn:E.
    + apply same_side_eq in E. subst z. rewrite (proj2 (same_side_eq sd sd) eq_refl). apply Forall2_app; [apply waits_more; exact (j_waits _ _ _ _ _ _ _ _ H cm sd)|].
      constructor; [|constructor]. exists x. split; [exact X|]. split; [reflexivity|]. split; [reflexivity|]. split; [|repeat split].
      rewrite nth_error_app2 by (rewrite (j_len _ _ _ _ _ _ _ _ H); apply le_n). rewrite (j_len _ _ _ _ _ _ _ _ H), Nat.sub_diag. reflexivity.
    + replace (same_side sd z) with false by (destruct sd, z; try reflexivity; discriminate). rewrite app_nil_r. apply waits_more. exact (j_waits _ _ _ _ _ _ _ _ H cm z).
  - rewrite Mm. exact (j_dom _ _ _ _ _ _ _ _ H).
  - intros i h' Hi Di. apply nth_snoc in Hi. rewrite (j_len _ _ _ _ _ _ _ _ H) in Hi. destruct Hi as [Hi|[-> ->]].
    + destruct (j_req _ _ _ _ _ _ _ _ H i h' Hi Di) as (X1 & X2 & q & Q & SQ). split; [exact X1|]. split; [exact X2|].
      assert (YR : a_obj a' h' = a_obj a h').
      { apply RS; [intros ->; apply Nh; exact (nth_error_In _ _ Hi)|]. intros ->. apply (cm_not _ _ _ _ _ _ _ _ H cm k K0). exact (nth_error_In _ _ Hi). }
      exists q. split; [unfold req_at in *; rewrite YR; exact Q|]. destruct SQ as [[I Q1]|SQ]; [left; split; [apply in_or_app; auto|exact Q1]|right; exact SQ].
    + split; [exact F1|]. split; [rewrite <- (j_rest _ _ _ _ _ _ _ _ H h Nh Ncm); exact F2|].
      pose proof (qd_req _ _ _ _ _ _ QD) as YR. cbn [p p_req] in YR. eexists. split; [exact YR|]. left. split; [apply in_or_app; right; left; reflexivity|reflexivity].
  - exact (j_null' _ _ _ _ _ _ _ _ H h).
  - intros i Di. destruct (j_done _ _ _ _ _ _ _ _ H i Di) as [D1 D2]. split; [lia|]. intros I. apply in_app_or in I. destruct I as [I|[I|[]]]; [exact (D2 I)|lia].
  - exact (j_inj' _ _ _ _ _ _ _ _ H h Nh).
  - intros z Hz Nz. rewrite in_app_iff in Hz. cbn [In] in Hz. rewrite RS; [apply (j_rest _ _ _ _ _ _ _ _ H); tauto|intros ->; tauto|intros ->; congruence].
  - rewrite app_length, (j_len _ _ _ _ _ _ _ _ H). cbn [length]. lia.
  - pose proof (j_left _ _ _ _ _ _ _ _ H). lia.
  - pose proof (j_items _ _ _ _ _ _ _ _ H). lia.
Qed.
Lemma skipn_tail {A} : forall n (l : list A) x r, skipn n l = x :: r -> skipn (S n) l = r.
Proof. induction n as [|n IH]; intros [|y l] x r E; try discriminate; [injection E as _ <-; reflexivity|]. exact (IH l x r E). Qed.
Lemma step_post n dn hs s a P x : J n (fst (upon prog n)) (snd (upon prog n)) dn hs s a P -> nth_error prog n = Some x ->
  Z.of_nat (length prog) <= handles_left a0 -> a_items a0 + Z.of_nat (length prog) <= INT_MAX ->
  exists h s' a' P', does s a (act_call x) (VInt h) s' a' /\ in_turn c prog (skipn (length (fst (upon prog n))) (fst (upon prog (S n)))) (s_mem s) (s_mem s') /\
    J (S n) (fst (upon prog (S n))) (snd (upon prog (S n))) dn (hs ++ [h]) s' a' P'.
Proof.
  intros H X HL HI. assert (Ln : (n < length prog)%nat) by (apply nth_error_Some; congruence). pose proof (ri_run prog n ltac:(lia)) as HR.
  assert (H1 : 0 < handles_left a) by (pose proof (j_left _ _ _ _ _ _ _ _ H); lia).
  assert (H2 : room a) by (unfold room; pose proof (j_items _ _ _ _ _ _ _ _ H); lia).
  rewrite upon_S. unfold meet. rewrite X. destruct (pick (fits_at prog x) (snd (upon prog n))) as [[j r]|] eqn:K; cbn [fst snd].
  - destruct (pick_some _ _ _ _ K) as (b & e & Ew & -> & F & N). rewrite Ew in H, HR. rewrite skip_app. eapply step_paired; eauto.
    apply (upon_keeps prog (S n)); [lia|]. rewrite upon_S. unfold meet. rewrite X, K. cbn [fst]. apply in_or_app. right. left. reflexivity.
  - destruct (step_queued _ _ _ _ _ _ _ _ _ H HR X K H1 H2) as (h & s' & a' & P' & D & M & HJ). exists h, s', a', P'. split; [exact D|]. split; [|exact HJ]. rewrite skipn_all. exact M.
Qed.
Lemma run_all : forall rest n hs s a P, J n (fst (upon prog n)) (snd (upon prog n)) [] hs s a P -> skipn n prog = rest -> (n + length rest = length prog)%nat ->
  Z.of_nat (length prog) <= handles_left a0 -> a_items a0 + Z.of_nat (length prog) <= INT_MAX ->
  exists hs' s' a' P', gives c tj (map act_call rest) s a (map VInt hs') s' a' /\ in_turn c prog (skipn (length (fst (upon prog n))) (couples prog)) (s_mem s) (s_mem s') /\
    J (length prog) (couples prog) (left_over prog) [] (hs ++ hs') s' a' P'.
Proof.
  induction rest as [|x rest IH]; intros n hs s a P H E L HL HI.
  - cbn [length] in L. assert (n = length prog) by lia. subst n. exists [], s, a, P. split; [constructor|]. rewrite app_nil_r. split; [|exact H]. unfold couples. rewrite skipn_all. reflexivity.
  - cbn [length] in L.
    assert (X : nth_error prog n = Some x).
    { rewrite <- (firstn_skipn n prog), E, nth_error_app2; rewrite firstn_length; [|lia]. replace (n - Nat.min n (length prog))%nat with 0%nat by lia. reflexivity. }
    destruct (step_post n [] hs s a P x H X HL HI) as (h & s1 & a1 & P1 & Do & T1 & H').
    destruct (IH (S n) (hs ++ [h]) s1 a1 P1 H') as (hs' & s' & a' & P' & Rn & T2 & HJ); auto.
    + apply (skipn_tail _ _ _ _ E).
    + lia.
    + rewrite <- app_assoc in HJ. exists (h :: hs'), s', a', P'. split; [cbn [map]; econstructor; eauto|]. split; [|exact HJ].
      change (couples prog) with (fst (upon prog (length prog))). rewrite (pairs_between prog n (S n) (length prog)) by lia. apply turn_app. exists (s_mem s1). auto.
Qed.
Lemma j_start s : reach s a0 -> s_mem s = m0 -> J 0 (fst (upon prog 0)) (snd (upon prog 0)) [] [] s a0 (fun _ _ => []).
Proof.
  intros R M. constructor.
  - exact R.
  - intros cm k K0. rewrite K0, !app_nil_r. destruct k; reflexivity.
  - intros cm sd. constructor.
  - rewrite M. intros z. reflexivity.
  - intros [|i] h Hi; discriminate.
  - intros [|i] h Hi; discriminate.
  - intros i [].
  - intros [|i] j h Hi; discriminate.
  - reflexivity.
  - reflexivity.
  - lia.
  - lia.
Qed.
End Run.
Lemma null_free c tj s a : reach c tj s a -> a_obj a MPI_REQUEST_NULL = None.
Proof.
  intros R. destruct (a_obj a MPI_REQUEST_NULL) as [o|] eqn:O; [|reflexivity]. destruct (SysInv.hw_live _ (SysInv.iv_hw _ (reach_inv _ _ R)) MPI_REQUEST_NULL) as [X _]; [congruence|].
  unfold MPI_REQUEST_NULL in X. lia.
Qed.

Theorem C104_lemma c tj s a prog : reach c tj s a -> cfg_ok c -> mem_ok (s_mem s) ->
  acts_ok c a (s_mem s) prog ->
  Z.of_nat (length prog) <= handles_left a -> a_items a + Z.of_nat (length prog) <= INT_MAX ->
  exists hs s1 a1, gives c tj (map act_call prog) s a (map VInt hs) s1 a1 /\
    in_turn c prog (couples prog) (s_mem s) (s_mem s1) /\
    (forall cm k, comm_at a cm = Some k -> exists k1, comm_at a1 cm = Some k1 /\ queues_hold prog hs cm k k1) /\
    NoDup hs /\ length hs = length prog /\
    (forall i h, nth_error hs i = Some h -> a_obj a h = None /\ exists q, req_at a1 h = Some q /\ reports prog i q) /\
    (forall x, ~ In x hs -> comm_at a x = None -> a_obj a1 x = a_obj a x).
Proof.
  intros R CO MO OK HL HI.
  pose proof (null_free _ _ _ _ R) as N0. pose proof (j_start c tj a (s_mem s) prog s R eq_refl) as J0.
  destruct (run_all c tj a (s_mem s) prog CO MO OK N0 prog 0%nat [] s a _ J0 eq_refl eq_refl HL HI) as (hs & s1 & a1 & P & Rn & Tn & HJ).
  cbn [app] in HJ. exists hs, s1, a1. split; [exact Rn|]. split; [exact Tn|].
  split.
  { intros cm k K0. eexists. split; [exact (j_comm _ _ _ _ _ _ _ _ _ _ _ _ _ HJ cm k K0)|]. split; [reflexivity|]. intros sd. exists (P cm sd). split; [destruct sd; reflexivity|]. exact (j_waits _ _ _ _ _ _ _ _ _ _ _ _ _ HJ cm sd). }
  split; [apply NoDup_nth_error; intros i j Hi E; destruct (nth_error hs i) as [h|] eqn:Eh; [symmetry in E; apply (j_inj _ _ _ _ _ _ _ _ _ _ _ _ _ HJ i j h Eh E); intros []|apply nth_error_Some in Hi; congruence]|]. split; [exact (j_len _ _ _ _ _ _ _ _ _ _ _ _ _ HJ)|]. split.
  - intros i h Hi. destruct (j_req _ _ _ _ _ _ _ _ _ _ _ _ _ HJ i h Hi (fun x => x)) as (_ & X & Y). auto.
  - exact (j_rest _ _ _ _ _ _ _ _ _ _ _ _ _ HJ).
Qed.

Lemma nodup_r {A} (l m : list A) : NoDup (l ++ m) -> NoDup m.
Proof. induction l as [|x l IH]; cbn [app]; intros N; [exact N|inversion N; auto]. Qed.
Lemma nodup_l {A} (l m : list A) : NoDup (l ++ m) -> NoDup l.
Proof. induction l as [|x l IH]; cbn [app]; intros N; [constructor|]. inversion N as [|? ? N1 N2]; subst. constructor; [intros I; apply N1, in_or_app; auto|auto]. Qed.
Lemma rule_final prog : RI prog (length prog) (couples prog) (left_over prog).
Proof. exact (ri_run prog (length prog) (le_n _)). Qed.
Theorem C104_rule_lemma prog : obeys prog (couples prog) /\ StronglySorted sooner (couples prog) /\ Permutation (map fst (couples prog) ++ map snd (couples prog) ++ left_over prog) (seq 0 (length prog)).
Proof.
  pose proof (rule_final prog) as H. split; [constructor|split; [exact (ri_order _ _ _ _ H)|exact (ri_all _ _ _ _ H)]].
  - pose proof (ri_nodup _ _ _ _ H) as N. rewrite app_assoc in N. apply nodup_l in N. exact N.
  - intros i j I. destruct (ri_fit _ _ _ _ H i j I) as (x & y & X & Y & SX & SY & F). exists x, y. split; [exact X|]. split; [exact Y|]. split; [exact (fit_comm _ _ F)|]. do 2 (split; [assumption|]).
    unfold fit in F. rewrite SX, SY in F. destruct (_ =? _) in F; [|discriminate]. apply orb_true_iff in F. rewrite !Z.eqb_eq in F. exact F.
  - assert (G : forall i x, nth_error prog i = Some x -> (forall p, ~ together (couples prog) i p) -> In i (left_over prog)).
    { intros i x X N. destruct (proj1 (ri_in _ _ _ _ i H)) as [I|(p & M)]; [apply nth_error_Some; congruence|exact I|destruct (N p M)]. }
    intros i j x y X Y Ni Nj. apply (ri_none _ _ _ _ H i j); eauto.
  - exact (ri_over _ _ _ _ H).
Qed.

(** *** Buffers that do not overlap. *)
Lemma turn_moved c prog m : separate c prog -> forall l m', incl l (couples prog) -> NoDup (map snd l) -> in_turn c prog l m m' ->
  (forall i j x y, In (i, j) l -> nth_error prog i = Some x -> nth_error prog j = Some y -> bytes m' (area c y) = bytes m (area c x)) /\
  (forall z, (forall i j y r, In (i, j) l -> nth_error prog j = Some y -> In r (area c y) -> ~ inside r z) -> m' z = m z).
Proof.
  intros SP. pose proof (rule_final prog) as RF. induction l as [|[i j] l IH] using rev_ind; intros m' Ic ND T.
  - cbn [in_turn] in T. subst m'. split; [intros i j x y []|auto].
  - apply turn_app in T. destruct T as (m1 & T & x & y & m2 & X & Y & SD & Cp & ->).
    rewrite map_app in ND. cbn [map snd] in ND. pose proof (NoDup_remove_2 _ _ _ ND) as Nj. rewrite app_nil_r in Nj. apply nodup_l in ND.
    destruct (IH m1 (fun p I => Ic p (in_or_app _ _ _ (or_introl I))) ND T) as [Mv Kp].
    assert (Ip : In (i, j) (couples prog)) by (apply Ic, in_or_app; right; left; reflexivity).
    destruct (sp_same _ _ SP i j x y Ip X Y) as [Et Es]. rewrite Et in Cp.
    destruct (ri_fit _ _ _ _ RF i j Ip) as (x' & y' & X' & Y' & SX & SY & _). assert (x' = x) by congruence. assert (y' = y) by congruence. subst x' y'.
    split.
    + intros p q u v I U V. apply in_app_or in I. destruct I as [I|[I|[]]].
      * rewrite <- (Mv p q u v I U V). apply bytes_same. intros r z Hr Hz. apply (proj2 Cp). intros d Hd Hz'.
        refine (sp_apart _ _ SP q j v y V Y _ SY r d Hr Hd z (conj Hz Hz')). intros ->. apply Nj. apply in_map_iff. exists (p, j). auto.
      * injection I as <- <-. assert (u = x) by congruence. assert (v = y) by congruence. subst u v. rewrite (bytes_copied _ _ _ _ Es Cp).
        apply bytes_same. intros r z Hr Hz. apply Kp. clear U V. intros p q v r' I V Hr' Hz'.
        destruct (ri_fit _ _ _ _ RF p q (Ic _ (in_or_app _ _ _ (or_introl I)))) as (_ & v' & _ & V' & _ & SV & _). assert (v' = v) by congruence. subst v'.
        refine (sp_apart _ _ SP i q x v X V _ SV r r' Hr Hr' z (conj Hz Hz')). intros ->. congruence.
    + intros z Hz. rewrite (proj2 Cp).
      * apply Kp. intros p q v r I. apply (Hz p q). apply in_or_app. auto.
      * intros d Hd. apply (Hz i j y d); auto. apply in_or_app. right. left. reflexivity.
Qed.
Theorem C104_moved_lemma c prog m m' : separate c prog -> in_turn c prog (couples prog) m m' -> moved c prog m m'.
Proof.
  intros SP T. apply (turn_moved c prog m SP (couples prog) m' (incl_refl _)); [|exact T].
  pose proof (ri_nodup _ _ _ _ (rule_final prog)) as N. apply nodup_r, nodup_l in N. exact N.
Qed.

(** *** Completion. *)
Theorem C104_waitall_lemma c tj s a prog sts : reach c tj s a -> cfg_ok c -> mem_ok (s_mem s) ->
  acts_ok c a (s_mem s) prog ->
  let n := Z.of_nat (length prog) in
  n <= handles_left a -> a_items a + n <= INT_MAX -> n <= Z.of_nat (length sts) ->
  exists hs s1 a1, gives c tj (map act_call prog) s a (map VInt hs) s1 a1 /\ in_turn c prog (couples prog) (s_mem s) (s_mem s1) /\
    (left_over prog = [] ->
       exists sts' s2 a2, does c tj s1 a1 (KWaitall n hs (SSAt sts)) (VAll (map (fun _ => MPI_REQUEST_NULL) hs) 1 (SSAt sts')) s2 a2 /\
         s_mem s2 = s_mem s1 /\ (forall x, a_obj a2 x = a_obj a x) /\
         forall i j x, In (i, j) (couples prog) -> nth_error prog i = Some x -> exists st, nth_error sts' j = Some st /\ st_source st = 0 /\ st_tag st = x_tag x) /\
    (left_over prog <> [] -> exec c (KWaitall n hs (SSAt sts)) s1 = Abort "MPI_Waitall: request not complete, deadlock").
Proof.
  intros R CO MO OK n HL HI HS.
  destruct (C104_lemma c tj s a prog R CO MO OK HL HI) as (hs & s1 & a1 & G & Mv & QA & ND & LH & RQ & RS).
  exists hs, s1, a1. split; [exact G|]. split; [exact Mv|].
  assert (R1 : reach c tj s1 a1).
  { clear - R G. remember (map act_call prog) as ks. clear Heqks. remember (map VInt hs) as os. clear Heqos. induction G as [|? ? ? ? ? ? ? ? ? ? D G IH]; [exact R|]. apply IH. apply D. }
  pose proof (reach_inv _ _ R1) as IV.
  assert (N0 : forall h, In h hs -> h <> MPI_REQUEST_NULL).
  { intros h I Z0. apply In_nth_error in I. destruct I as (i & I). destruct (RQ i h I) as (_ & q & Q & _). unfold req_at in Q. subst h.
    destruct (a_obj a1 MPI_REQUEST_NULL) as [o|] eqn:O; [|discriminate]. destruct (SysInv.hw_live _ (SysInv.iv_hw _ (reach_inv _ _ R1)) MPI_REQUEST_NULL) as [X _]; [congruence|]. unfold MPI_REQUEST_NULL in X. lia. }
  assert (LE : firstn (Z.to_nat n) hs = hs) by (rewrite <- (firstn_all hs) at 2; f_equal; unfold n; lia).
  assert (SK : skipn (Z.to_nat n) hs = []) by (apply skipn_all2; unfold n; lia).
  assert (FE : filter (fun r => negb (r =? MPI_REQUEST_NULL)) hs = hs).
  { apply filter_id. intros h X. apply negb_true_iff, Z.eqb_neq. auto. }
  assert (IT : 0 <= a_items a).
  { destruct (ab_ex (reach_abs _ _ R)) as (lv & f & ids & g & _ & _ & LI & _). rewrite <- (ab_items (reach_abs _ _ R)), (ListProofs.li_ic LI). apply ListProofs.sumlen_nonneg. }
  assert (LR : legal_reqs n hs a1).
  { unfold legal_reqs. rewrite LE, FE. split; [unfold n; lia|]. split; [lia|]. split; [|exact ND].
    intros h X. right. apply In_nth_error in X. destruct X as (i & X). destruct (RQ i h X) as (_ & q & E & _). eauto. }
  destruct (C25_lemma s1 a1 n hs (SSAt sts) R1 LR) as [X1 X2]; [exact HS|]. rewrite LE, SK, FE, app_nil_r in X1. rewrite LE in X2. split.
  - intros NL. destruct X1 as (s2 & a2 & sts' & Do & W & (Rl1 & Rl2 & Rl3 & _)).
    { intros h Y. right. apply In_nth_error in Y. destruct Y as (i & Y). destruct (RQ i h Y) as (_ & q & E & Rq). exists q. split; [exact E|].
      apply (finished_report a1 h); auto. destruct Rq as [[Rq _]|[(j & _ & Rq)|(j & y & _ & _ & Rq)]]; [rewrite NL in Rq; destruct Rq|congruence..]. }
    destruct W as (l' & -> & Ll & W). exists l', s2, a2. split; [exact Do|]. split; [|split].
    + destruct Do as (_ & _ & R2 & _). rewrite (ab_mem (reach_abs _ _ R2)), (ab_mem (reach_abs _ _ R1)). exact Rl3.
    + intros x. destruct (in_dec Z.eq_dec x hs) as [X|X].
      * rewrite (Rl1 x X). symmetry. apply In_nth_error in X. destruct X as (i & X). apply (RQ i x X).
      * rewrite (Rl2 x X). destruct (comm_at a x) as [k|] eqn:K0; [|apply RS; auto]. destruct (QA x k K0) as (k1 & K1 & Ku & QH).
        assert (k1 = k).
        { destruct (QH Snd) as (P1 & E1 & F1). destruct (QH Rcv) as (P2 & E2 & F2). rewrite NL in F1, F2. inversion F1. inversion F2. subst P1 P2. rewrite app_nil_r in E1, E2.
          destruct k, k1. cbn in Ku, E1, E2. congruence. }
        subst k1. unfold comm_at in K0, K1. destruct (a_obj a x) as [[]|], (a_obj a1 x) as [[]|]; congruence.
    + intros i j x I X. pose proof (rule_final prog) as RF. pose proof (ri_lt _ _ _ _ _ _ RF (or_introl I)) as [_ Lj].
      destruct (nth_error hs j) as [h|] eqn:Hj; [|apply nth_error_None in Hj; lia].
      destruct (nth_error sts j) as [z|] eqn:Zj; [|apply nth_error_None in Zj; unfold n in HS; lia].
      destruct (W j z Zj) as (y & Y & WY). exists y. split; [exact Y|].
      destruct (RQ j h Hj) as (_ & q & Q & Rq).
      assert (St : status_of a1 h = Write (Some 0) (Some (x_tag x))).
      { unfold status_of. destruct (Z.eqb_spec h MPI_REQUEST_NULL) as [Z0|_]; [destruct (N0 h (nth_error_In _ _ Hj) Z0)|]. rewrite Q.
        destruct Rq as [[Rq _]|[(j' & I' & _)|(i' & y' & I' & Y' & ->)]].
        - rewrite NL in Rq. destruct Rq.
        - destruct (ri_fit _ _ _ _ RF _ _ I) as (_ & u & _ & U & _ & SU & _). destruct (ri_fit _ _ _ _ RF _ _ I') as (v & _ & V & _ & SV & _). congruence.
        - assert (i' = i).
          { pose proof (ri_nodup _ _ _ _ RF) as N. apply nodup_r, nodup_l in N. clear - N I I'. induction (couples prog) as [|[u v] L IH]; [destruct I|].
            inversion N as [|? ? N1 N2]; subst. destruct I as [I|I], I' as [I'|I'].
            - congruence.
            - injection I as -> ->. destruct N1. apply in_map_iff. exists (i', j). auto.
            - injection I' as -> ->. destruct N1. apply in_map_iff. exists (i, j). auto.
            - auto. }
          subst i'. congruence. }
      assert (Nt : nth j (map (status_of a1) hs) NoWrite = status_of a1 h) by (apply nth_error_nth; rewrite nth_error_map, Hj; reflexivity).
      rewrite Nt, St in WY. destruct WY as (y' & E & S1 & S2 & _). injection E as <-. split; [apply S1|apply S2]; reflexivity.
  - intros NL. apply X2. destruct (left_over prog) as [|i l] eqn:L; [congruence|]. pose proof (rule_final prog) as RF. rewrite L in RF.
    assert (Li : (i < length prog)%nat) by (apply (ri_in _ _ _ _ i RF); left; left; reflexivity).
    destruct (nth_error hs i) as [h|] eqn:Hi; [|apply nth_error_None in Hi; lia]. exists h. split; [exact (nth_error_In _ _ Hi)|].
    destruct (RQ i h Hi) as (_ & q & Q & Rq). intros [Z0|(q' & Q' & F)]; [exact (N0 h (nth_error_In _ _ Hi) Z0)|].
    assert (q' = q) by congruence. subst q'. apply (finished_report a1 h q IV Q) in F.
    destruct Rq as [[_ Rq]|[(j & I & _)|(j & y & I & _ & _)]]; [congruence| |];
      refine (ri_alone _ _ _ _ i j RF (or_introl eq_refl) _); [left|right]; exact I.
Qed.

(** *** The rule leaves no choice. *)
Section Only.
Variables (prog : list act) (M : list (nat * nat)).
Hypothesis O : obeys prog M.
Lemma tog_sym i j : together M i j -> together M j i.
Proof. intros [I|I]; [right|left]; exact I. Qed.
Lemma fst_once : forall (L : list (nat * nat)) i p q, NoDup (map fst L) -> In (i, p) L -> In (i, q) L -> p = q.
Proof.
  induction L as [|[u v] L IH]; intros i p q N I J; [destruct I|]. inversion N as [|? ? N1 N2]; subst. destruct I as [I|I], J as [J|J].
  - congruence.
  - injection I as -> ->. destruct N1. apply in_map_iff. exists (i, q). auto.
  - injection J as -> ->. destruct N1. apply in_map_iff. exists (i, p). auto.
  - eauto.
Qed.
Lemma snd_once : forall (L : list (nat * nat)) i p q, NoDup (map snd L) -> In (p, i) L -> In (q, i) L -> p = q.
Proof.
  induction L as [|[u v] L IH]; intros i p q N I J; [destruct I|]. inversion N as [|? ? N1 N2]; subst. destruct I as [I|I], J as [J|J].
  - congruence.
  - injection I as -> ->. destruct N1. apply in_map_iff. exists (q, i). auto.
  - injection J as -> ->. destruct N1. apply in_map_iff. exists (p, i). auto.
  - eauto.
Qed.
Lemma tog_fit i j : together M i j -> exists x y, nth_error prog i = Some x /\ nth_error prog j = Some y /\ fit x y = true.
Proof.
  intros I. assert (G : forall p q, In (p, q) M -> exists x y, nth_error prog p = Some x /\ nth_error prog q = Some y /\ fit x y = true).
  { intros p q H. destruct (ob_fit _ _ O p q H) as (x & y & X & Y & CY & SX & SY & T). exists x, y. split; [exact X|]. split; [exact Y|].
    unfold fit. rewrite SX, SY, CY, Z.eqb_refl. apply orb_true_iff. rewrite !Z.eqb_eq. exact T. }
  destruct I as [I|I]; [eauto|]. destruct (G _ _ I) as (x & y & X & Y & F). exists y, x. rewrite fit_sym. auto.
Qed.
Lemma tog_one i p q : together M i p -> together M i q -> p = q.
Proof.
  assert (X : forall u v, In (i, u) M -> In (v, i) M -> False).
  { intros u v I J. destruct (ob_fit _ _ O _ _ I) as (x & _ & X & _ & _ & SX & _). destruct (ob_fit _ _ O _ _ J) as (_ & y & _ & Y & _ & _ & SY & _). congruence. }
  pose proof (ob_once _ _ O) as N. pose proof (nodup_l _ _ N) as N1. pose proof (nodup_r _ _ N) as N2.
  intros [I|I] [J|J]; [eapply fst_once; eauto|destruct (X _ _ I J)|destruct (X _ _ J I)|eapply snd_once; eauto].
Qed.
Lemma classic_tog i : (exists p, together M i p) \/ (forall p, ~ together M i p).
Proof.
  assert (D : forall L : list (nat * nat), (exists p, together L i p) \/ (forall p, ~ together L i p)).
  { induction L as [|[u v] L IH]; [right; intros p [[]|[]]|]. destruct IH as [(p & P)|N]; [left; exists p; destruct P; [left|right]; right; assumption|].
    destruct (Nat.eq_dec u i) as [->|Nu]; [left; exists v; left; left; reflexivity|]. destruct (Nat.eq_dec v i) as [->|Nv]; [left; exists u; right; left; reflexivity|].
    right. intros p [[I|I]|[I|I]]; try congruence; apply (N p); [left|right]; exact I. }
  apply D.
Qed.
(** Pairs made before [n] are the same. *)
Lemma same_upto : forall n, (n <= length prog)%nat -> forall i j, (i < n)%nat -> (j < n)%nat -> together M i j <-> together (fst (upon prog n)) i j.
Proof.
  induction n as [|n IH]; intros L i j Li Lj; [lia|]. pose proof (ri_run prog n ltac:(lia)) as HR. specialize (IH ltac:(lia)).
  rewrite upon_S. unfold meet. destruct (nth_error prog n) as [x|] eqn:X; [|apply nth_error_None in X; lia].
  set (ps := fst (upon prog n)) in *. set (w := snd (upon prog n)) in *.
  (* of an operation that still waits *)
  assert (Wt : forall p q, In p w -> (q < n)%nat -> ~ together M p q).
  { intros p q I Lq T. apply (ri_alone _ _ _ _ _ q HR I). apply IH; auto. apply (ri_in _ _ _ _ _ HR). auto. }
  assert (Wo : forall p, (p < n)%nat -> together M p n -> In p w).
  { intros p Lp T. destruct (proj1 (ri_in _ _ _ _ p HR) Lp) as [I|(q & Q)]; [exact I|]. exfalso.
    pose proof (ri_lt _ _ _ _ _ _ HR Q) as [_ Lq]. apply IH in Q; auto. pose proof (tog_one _ _ _ T Q). lia. }
  assert (Nn : ~ together M n n).
  { intros T. destruct (tog_fit _ _ T) as (u & v & U & V & F). assert (u = v) by congruence. subst v. unfold fit in F. destruct (_ =? _) in F; [|discriminate]. destruct (x_side u); discriminate. }
  destruct (pick (fits_at prog x) w) as [[p r]|] eqn:K; cbn [fst].
  - destruct (pick_some _ _ _ _ K) as (b & e & Ew & -> & F & Nb). unfold fits_at in F. destruct (nth_error prog p) as [y|] eqn:Y; [|discriminate].
    assert (Ip : In p w) by (rewrite Ew; apply in_or_app; right; left; reflexivity).
    assert (Lp : (p < n)%nat) by (apply (ri_in _ _ _ _ _ HR); auto).
    assert (T : together M n p).
    { (* the partner of n in M *)
      assert (D : forall q, together M n q -> q = p \/ (n < q)%nat).
      { intros q T. destruct (lt_eq_lt_dec q n) as [[Lq|Eq]|Lq]; [|subst q; contradiction|auto]. left. pose proof (Wo q Lq (tog_sym _ _ T)) as Iq.
        destruct (tog_fit _ _ T) as (x1 & z & X1 & Z & FZ). assert (x1 = x) by congruence. subst x1.
        destruct (Nat.eq_dec q p) as [E|NE]; [exact E|exfalso]. destruct (Nat.lt_ge_cases p q) as [Lpq|Lpq].
        - destruct (ob_over _ _ O q n p y x (tog_sym _ _ T) Lpq Y X) as (q' & T' & L'); [rewrite fit_sym; exact F|].
          apply (Wt p q' Ip); [lia|exact T'].
        - assert (Lq' : (q < p)%nat) by lia. rewrite Ew in Iq. pose proof (ri_sorted _ _ _ _ HR) as S. fold w in S. rewrite Ew in S.
          pose proof (sorted_before _ _ _ _ S Iq Lq') as Ib. specialize (Nb q Ib). unfold fits_at in Nb. rewrite Z in Nb. congruence. }
      destruct (classic_tog n) as [(q & T)|No].
      - destruct (D q T) as [->|Lq]; [exact T|exfalso].
        destruct (ob_over _ _ O q n p y x (tog_sym _ _ T) ltac:(lia) Y X) as (i' & T' & L'); [rewrite fit_sym; exact F|].
        assert (n < i')%nat.
        { destruct (lt_eq_lt_dec i' n) as [[Li'|Ei]|Li']; [|subst i'; pose proof (tog_one _ _ _ T (tog_sym _ _ T')); lia|exact Li']. destruct (Wt p i' Ip Li' T'). }
        destruct (ob_over _ _ O i' p n x y (tog_sym _ _ T') ltac:(lia) X Y F) as (q' & T2 & L2). assert (q' = q) by exact (tog_one _ _ _ T2 T). subst q'. lia.
      - exfalso. destruct (classic_tog p) as [(i' & T')|No'].
        + assert (n < i')%nat.
          { destruct (lt_eq_lt_dec i' n) as [[Li'|Ei]|Li']; [|subst i'; destruct (No p (tog_sym _ _ T'))|exact Li']. destruct (Wt p i' Ip Li' T'). }
          destruct (ob_over _ _ O i' p n x y (tog_sym _ _ T') ltac:(lia) X Y F) as (q' & T2 & _). exact (No q' T2).
        + rewrite (ob_rest _ _ O n p x y X Y No No') in F. discriminate. }
    assert (MP : together (ps ++ [pair_of x n p]) i j <-> together ps i j \/ (i = n /\ j = p) \/ (i = p /\ j = n)).
    { unfold together, pair_of. rewrite !in_app_iff. cbn [In]. destruct (x_side x); split; intros Q;
        repeat match goal with Q : _ \/ _ |- _ => destruct Q as [Q|Q] end; try contradiction; try (injection Q as <- <-); try (destruct Q as [-> ->]); auto 8. }
    rewrite MP. split.
    + intros T'. destruct (Nat.eq_dec i n) as [->|Ni]; [right; left; split; [reflexivity|exact (tog_one _ _ _ T' T)]|].
      destruct (Nat.eq_dec j n) as [->|Nj]; [right; right; split; [exact (tog_one _ _ _ (tog_sym _ _ T') T)|reflexivity]|]. left. apply IH; auto; lia.
    + intros [Q|[[-> ->]|[-> ->]]]; [|exact T|apply tog_sym; exact T]. pose proof (ri_lt _ _ _ _ _ _ HR Q). apply IH; auto; lia.
  - assert (No : forall q, (q < n)%nat -> ~ together M n q).
    { intros q Lq T. pose proof (Wo q Lq (tog_sym _ _ T)) as Iq. pose proof (pick_none _ _ K q Iq) as F. unfold fits_at in F.
      destruct (tog_fit _ _ T) as (x1 & z & X1 & Z & FZ). rewrite Z in F. congruence. }
    split.
    + intros T. destruct (Nat.eq_dec i n) as [->|Ni].
      * destruct (Nat.eq_dec j n) as [->|Nj]; [contradiction|]. destruct (No j ltac:(lia) T).
      * destruct (Nat.eq_dec j n) as [->|Nj]; [destruct (No i ltac:(lia) (tog_sym _ _ T))|]. apply IH; auto; lia.
    + intros Q. pose proof (ri_lt _ _ _ _ _ _ HR Q). apply IH; auto; lia.
Qed.
Theorem C104_only_lemma i j : In (i, j) M <-> In (i, j) (couples prog).
Proof.
  assert (D : forall M', obeys prog M' -> In (i, j) M' -> (i < length prog /\ j < length prog)%nat).
  { intros M' O' I. destruct (ob_fit _ _ O' i j I) as (x & y & X & Y & _). split; apply nth_error_Some; congruence. }
  assert (OC : obeys prog (couples prog)) by apply C104_rule_lemma.
  assert (S : forall M', obeys prog M' -> In (i, j) M' -> exists x, nth_error prog i = Some x /\ x_side x = Snd).
  { intros M' O' I. destruct (ob_fit _ _ O' i j I) as (x & y & X & _ & _ & SX & _). eauto. }
  assert (S' : forall M', obeys prog M' -> In (j, i) M' -> exists x, nth_error prog i = Some x /\ x_side x = Rcv).
  { intros M' O' I. destruct (ob_fit _ _ O' j i I) as (x & y & _ & Y & _ & _ & SY & _). eauto. }
  pose proof (same_upto (length prog) (le_n _) i j) as E. change (fst (upon prog (length prog))) with (couples prog) in E. split; intros I.
  - destruct (D M O I) as [L1 L2]. destruct (proj1 (E L1 L2) (or_introl I)) as [Q|Q]; [exact Q|].
    destruct (S M O I) as (x & X & SX). destruct (S' _ OC Q) as (y & Y & SY). congruence.
  - destruct (D _ OC I) as [L1 L2]. destruct (proj2 (E L1 L2) (or_introl I)) as [Q|Q]; [exact Q|].
    destruct (S _ OC I) as (x & X & SX). destruct (S' _ O Q) as (y & Y & SY). congruence.
Qed.
End Only.
