(** No call but MPI_Recv sets the count of a status (C34), in any state. *)
From Coq Require Import Lia.
From Verif Require Import Base HandleModel ListModel TypeModel CopyModel SysModel CollModel SysCalls StsSpec FormFacts.

Definition fields (x : status) : Z * Z := (st_error x, st_count x).
Definition kept (st st' : sarg) : Prop := map fields (one_status st') = map fields (one_status st).
Definition kepts (sts sts' : sargs) : Prop := map fields (all_statuses sts') = map fields (all_statuses sts).
Ltac st_step :=
  match goal with
  | H : mbind ?e _ ?s = Ok _ |- _ => let X := fresh "X" in unfold mbind at 1 in H; destruct (e s) as [[? ?]| | | |] eqn:X; cbn [bind] in H; try discriminate H
  | H : pure ?e ?s = Ok _ |- _ => let X := fresh "X" in unfold pure in H; destruct e eqn:X; cbn [bind] in H; try discriminate H
  | H : ret _ _ = Ok _ |- _ => unfold ret in H
  | H : Ok (_, _) = Ok (_, _) |- _ => injection H as; subst
  end.
Lemma set_status_kept st x y st' : set_status st x y = Ok st' -> kept st st'.
Proof. destruct st; cbn; intros E; try discriminate; injection E as <-; reflexivity. Qed.
Lemma mbind_ok {A B} (e : M A) (f : A -> M B) s r : mbind e f s = Ok r -> exists a s1, e s = Ok (a, s1) /\ f a s1 = Ok r.
Proof. unfold mbind. destruct (e s) as [[a s1]| | | |]; cbn [bind]; intros H; try discriminate. eauto. Qed.
Lemma pure_ok {A} (e : res A) s a s1 : pure e s = Ok (a, s1) -> e = Ok a /\ s1 = s.
Proof. unfold pure. destruct e; cbn; intros H; try discriminate. injection H as <- <-. auto. Qed.
Ltac mstep := match goal with
  | H : mbind _ _ _ = Ok _ |- _ => let a := fresh "v" in let s := fresh "s" in let E := fresh "E" in apply mbind_ok in H; destruct H as (a & s & E & H)
  | H : pure _ _ = Ok (_, _) |- _ => apply pure_ok in H; destruct H as [H ->]
  | H : ret _ _ = Ok (_, _) |- _ => unfold ret in H; injection H as; subst
  end.
Lemma test_kept r st s r' fl st' s' : MPI_Test r st s = Ok ((r', fl, st'), s') -> kept st st'.
Proof.
  unfold MPI_Test. destruct (r =? MPI_REQUEST_NULL); intros H.
  - mstep. mstep. mstep. eapply set_status_kept; eauto.
  - do 3 mstep. destruct (negb (r_complete v1 =? 0)).
    + repeat mstep. eapply set_status_kept; eauto.
    + repeat mstep. reflexivity.
Qed.
Lemma wait_kept r st s r' st' s' : MPI_Wait r st s = Ok ((r', st'), s') -> kept st st'.
Proof.
  unfold MPI_Wait. intros H. mstep. destruct v as [[? ?] ?]. destruct (z0 =? 0); repeat mstep; [discriminate|]. eapply test_kept; eauto.
Qed.
Lemma put_kept sts i st' : kept (sts_get sts i) st' -> kepts sts (sts_put sts i st').
Proof.
  unfold kepts, kept. destruct sts as [|l]; [reflexivity|]. destruct st' as [|x|]; try reflexivity. cbn [sts_get sts_put all_statuses one_status map].
  destruct (arr_get l i) as [y| | | |] eqn:E; cbn [one_status map]; try discriminate. intros F. injection F as F1 F2.
  unfold arr_get in E. destruct (i <? 0); [discriminate|]. destruct (nth_error l (Z.to_nat i)) as [z|] eqn:N; [|discriminate]. injection E as ->.
  revert N. generalize (Z.to_nat i). clear - F1 F2. induction l as [|w l IH]; intros [|k] N; cbn in *; try discriminate; [injection N as ->; f_equal; unfold fields; congruence|f_equal; auto].
Qed.
Lemma test_at_kept rs sts i s rs' sts' fl s' : test_at rs sts i s = Ok ((rs', sts', fl), s') -> kepts sts sts'.
Proof.
  unfold test_at. intros H. repeat mstep. destruct v0 as [[? ?] ?]. repeat mstep. eapply put_kept, test_kept; eauto.
Qed.
Lemma mfor_kept {B} (P : B -> Prop) n (body : Z -> B -> M B) b s b' s' : mfor n body b s = Ok (b', s') -> P b ->
  (forall i b s b' s', P b -> body i b s = Ok (b', s') -> P b') -> P b'.
Proof.
  unfold mfor. intros H Hb Hs. apply (for_ok_i (fun _ bs => P (fst bs)) _ _ _ _ _ H Hb).
  intros i [b1 s1] [b2 s2] _ HP E. eapply Hs; eauto.
Qed.
Lemma testall_kept n rs sts s rs' f sts' s' : MPI_Testall n rs sts s = Ok ((rs', f, sts'), s') -> kepts sts sts'.
Proof.
  unfold MPI_Testall. intros H. mstep. destruct v as [[? ?] ?]. repeat mstep.
  apply (mfor_kept (fun x => kepts sts (snd x)) _ _ _ _ _ _ E eq_refl). clear. intros i [[rs f] sts1] s [[rs2 f2] sts2] s2 K H. repeat mstep.
  destruct v as [[? ?] ?]. repeat mstep. cbn [snd] in *. apply test_at_kept in E. unfold kepts in *. congruence.
Qed.
Lemma waitall_kept n rs sts s rs' sts' s' : MPI_Waitall n rs sts s = Ok ((rs', sts'), s') -> kepts sts sts'.
Proof.
  unfold MPI_Waitall. intros H.
  apply (mfor_kept (fun x => kepts sts (snd x)) _ _ _ _ _ _ H eq_refl). clear. intros i [rs sts1] s [rs2 sts2] s2 K H. mstep.
  destruct v as [[? ?] fl]. destruct (fl =? 0); repeat mstep; [discriminate|]. cbn [snd] in *. apply test_at_kept in E. unfold kepts in *. congruence.
Qed.
Lemma testsome_kept n rs ix sts s rs' o ix' sts' s' : MPI_Testsome n rs ix sts s = Ok ((rs', o, ix', sts'), s') -> kepts sts sts'.
Proof.
  unfold MPI_Testsome. intros H. mstep. destruct v as [[? ?] ?]. repeat mstep.
  apply (mfor_kept (fun x => kepts sts (snd x)) _ _ _ _ _ _ E eq_refl). clear. intros i [[rs f] sts1] s [[rs2 f2] sts2] s2 K H. mstep.
  destruct v as [[? ?] fl]. destruct (fl =? 0); repeat mstep; cbn [snd] in *; apply test_at_kept in E; unfold kepts in *; congruence.
Qed.
Lemma testany_from_kept : forall n i rs st s rs' f st' s', testany_from n i rs st s = Ok ((rs', f, st'), s') -> kept st st'.
Proof.
  induction n as [|n IH]; intros i rs st s rs' f st' s'; cbn [testany_from]; intros H; [mstep; reflexivity|].
  repeat mstep. destruct v0 as [[? ?] ?]. mstep. apply test_kept in E0. destruct (negb (z0 =? 0)).
  - repeat mstep. exact E0.
  - apply IH in H. unfold kept in *. congruence.
Qed.
Lemma testany_kept n rs ix st s rs' ix' f st' s' : MPI_Testany n rs ix st s = Ok ((rs', ix', f, st'), s') -> kept st st'.
Proof. unfold MPI_Testany. intros H. mstep. destruct v as [[? ?] ?]. mstep. eapply testany_from_kept; eauto. Qed.
Lemma waitany_kept n rs ix st s rs' ix' st' s' : MPI_Waitany n rs ix st s = Ok ((rs', ix', st'), s') -> kept st st'.
Proof. unfold MPI_Waitany. intros H. mstep. destruct v as [[[? ?] f] ?]. destruct (f =? 0); repeat mstep; [discriminate|]. eapply testany_kept; eauto. Qed.
Lemma iprobe_kept so g cm st s f st' s' : MPI_Iprobe so g cm st s = Ok ((f, st'), s') -> kept st st'.
Proof.
  unfold MPI_Iprobe. intros H. mstep. destruct (negb (so =? 0) && negb (so =? MPI_ANY_SOURCE)); [repeat mstep; discriminate|].
  do 2 mstep. destruct v1; [|repeat mstep; reflexivity]. mstep. destruct st; repeat mstep; try reflexivity; eapply set_status_kept; eauto.
Qed.
Lemma mmap_ok {A B} (f : A -> B) (e : M A) s o s' : mmap f e s = Ok (o, s') -> exists a, e s = Ok (a, s') /\ o = f a.
Proof. unfold mmap. intros H. repeat mstep. eauto. Qed.

Theorem C34_any_lemma c k s o s' : exec c k s = Ok (o, s') ->
  map st_error (found o) = map st_error (passed k) /\
  map st_count (found o) = match k with KRecv _ n _ _ _ _ _ => map (fun _ => n) (passed k) | _ => map st_count (passed k) end.
Proof.
  assert (F : forall l l', map fields l' = map fields l -> map st_error l' = map st_error l /\ map st_count l' = map st_count l).
  { induction l as [|x l IH]; intros [|y l'] E; try discriminate; auto. cbn in *. injection E as E1 E2 E3. destruct (IH _ E3). split; congruence. }
  intros H. destruct k; cbn [exec] in H; try (apply mmap_ok in H; destruct H as (v & H & ->)); cbn [passed found is_recv]; try (split; reflexivity).
  all: try (match goal with |- context [match ?v with (_, _) => _ end] => destruct v as [[? ?] ?] end; split; reflexivity).
  - (* MPI_Recv *) unfold MPI_Recv in H. do 2 mstep. destruct v1 as [? st1]. mstep. apply wait_kept in E0. unfold kept in E0.
    destruct st as [|x|], st1 as [|y|]; cbn in *; try discriminate; injection H as <-; cbn; auto. injection E0 as E1 E2. split; congruence.
  - (* MPI_Sendrecv *) apply F. unfold MPI_Sendrecv in H. do 3 mstep. destruct v2 as [? st1]. mstep. eapply wait_kept; eauto.
  - apply F. destruct v as [[? ?] ?]. eapply test_kept; eauto.
  - apply F. destruct v as [? ?]. eapply wait_kept; eauto.
  - apply F. destruct v as [[[? ?] ?] ?]. eapply testany_kept; eauto.
  - apply F. destruct v as [[? ?] ?]. eapply waitany_kept; eauto.
  - apply F. destruct v as [[? ?] ?]. eapply testall_kept; eauto.
  - apply F. destruct v as [? ?]. eapply waitall_kept; eauto.
  - apply F. destruct v as [[[? ?] ?] ?]. eapply testsome_kept; eauto.
  - apply F. destruct v as [[[? ?] ?] ?]. eapply testsome_kept; eauto.
  - apply F. destruct v as [? ?]. eapply iprobe_kept; eauto.
  - apply F. unfold MPI_Probe in H. mstep. destruct v0 as [f ?]. destruct (f =? 0); repeat mstep; [discriminate|]. eapply iprobe_kept; eauto.
  - injection H as <- <-. split; reflexivity.
Qed.

Theorem C27_any_lemma c K n rs ix st s rs' ix' f st' s' : K = KTestany \/ K = KWaitany -> exec c (K n rs ix st) s = Ok (VAny rs' ix' f st', s') -> ix' = ix.
Proof.
  assert (T : forall v s1, MPI_Testany n rs ix st s = Ok (v, s1) -> snd (fst (fst v)) = ix).
  { intros [[[? ?] ?] ?] s1 H. unfold MPI_Testany in H. mstep. destruct v as [[? ?] ?]. mstep. reflexivity. }
  intros [-> | ->] H; cbn [exec] in H; apply mmap_ok in H; destruct H as (v & H & E).
  - destruct v as [[[? ?] ?] ?]. injection E as -> -> -> ->. exact (T _ _ H).
  - unfold MPI_Waitany in H. mstep. destruct v0 as [[[? ix0] f0] ?]. pose proof (T _ _ E0) as X. cbn in X. subst ix0.
    destruct (f0 =? 0); repeat mstep; [discriminate|]. injection E as -> -> -> ->. reflexivity.
Qed.
Theorem C28_positions_lemma c K n rs ix sts s rs' o ix' sts' s' : K = KTestsome \/ K = KWaitsome -> exec c (K n rs ix sts) s = Ok (VSome rs' o ix' sts', s') -> ix' = ix.
Proof.
  assert (T : forall v s1, MPI_Testsome n rs ix sts s = Ok (v, s1) -> snd (fst v) = ix).
  { intros [[[? ?] ?] ?] s1 H. unfold MPI_Testsome in H. mstep. destruct v as [[? ?] ?]. mstep. reflexivity. }
  intros [-> | ->] H; cbn [exec] in H; apply mmap_ok in H; destruct H as (v & H & E); destruct v as [[[? ?] ?] ?]; injection E as -> -> -> ->; exact (T _ _ H).
Qed.
Theorem C28_same_lemma c n rs ix sts s : exec c (KWaitsome n rs ix sts) s = exec c (KTestsome n rs ix sts) s.
Proof. reflexivity. Qed.
