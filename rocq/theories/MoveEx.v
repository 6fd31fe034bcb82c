(** The example of C88. *)
From Coq Require Import Lia.
From Verif Require Import Base TypeModel TypeSpec TypeFinal CopyModel CopySpec CopyEx SysModel CollModel SysCalls SysSpec SysLog SysReach SysEx SysFinal FlowSpec FlowEx MoveSpec MoveFacts.

(** Type 2: two ints, 8 bytes apart; a receive of four ints is waiting. *)
Definition h_wait : list call := [KInit; KTypeCreate (TVector 2 1 2 INTT); KTypeCommit 2; KIrecv 500 4 INTT 0 5 1].
Definition p_wait : pend := mkPend 0 3 500 4 INTT 5.
Definition k_wait : acomm := mkAcomm 0 [] [p_wait].
Definition int1 : typestruct := pre1 4 2.
Definition h_then : list call := [KIsend 100 2 2 0 5 1; KTest 3 (SAt st0)].
Lemma int1_typed : typed default_cfg int1 4.
Proof. split; [apply wfb_ok|]; vm_compute; reflexivity. Qed.
Lemma comm_wait : comm_at (ex_a h_wait) 1 = Some k_wait. Proof. vm_compute; reflexivity. Qed.
Lemma earliest_wait : earliest Snd 5 k_wait [] p_wait []. Proof. split; [reflexivity|]. split; [reflexivity|intros q []]. Qed.
Lemma earliest_only bf p e : earliest Snd 5 k_wait bf p e -> p = p_wait.
Proof.
  intros (E & _). cbn [line other k_wait k_recvs] in E. destruct bf as [|x bf]; cbn in E; [injection E as E _; auto|].
  destruct bf; discriminate.
Qed.
Lemma writes_wait x : 0 <= x < TWO64 -> may_write default_cfg (ex_a h_wait) (KIsend 100 2 2 0 5 1) x -> 500 <= x < 516.
Proof.
  intros Hx (y & _ & kk & Ek & bf & p & e & Ea & st & dt & _ & Td & W & _). rewrite comm_wait in Ek. injection Ek as <-.
  apply earliest_only in Ea. subst p. cbn [p_wait p_buf p_count p_type] in *.
  assert (X : type_at default_cfg (ex_a h_wait) INTT = Some int1) by (vm_compute; reflexivity). rewrite X in Td. injection Td as <-.
  assert (L : layout default_cfg 500 4 4 (typemap int1) = [(500, 4); (504, 4); (508, 4); (512, 4)]) by (vm_compute; reflexivity).
  apply (proj1 (C88_region_lemma default_cfg to_s32 int1 4 500 4 x int1_typed ltac:(lia)
    (or_intror (conj eq_refl (fits_ok 4 4 (typemap int1) eq_refl))) ltac:(rewrite L; intros r Hr; cbn in Hr; unfold TWO64; repeat (destruct Hr as [<-|Hr]; [cbn; lia|]); destruct Hr) Hx)) in W.
  rewrite L in W. destruct W as (r & Hr & Ix). unfold inside in Ix. cbn in Hr. repeat (destruct Hr as [<-|Hr]; [cbn in Ix; lia|]). destruct Hr.
Qed.
Lemma C88_ex_lemma : let s := ex_s h_wait in let a := ex_a h_wait in let k := KIsend 100 2 2 0 5 1 in
  reach default_cfg ex_tj s a /\ moves default_cfg a k 504 108 /\
  (forall x, 0 <= x < TWO64 -> may_write default_cfg a k x -> 500 <= x < 516) /\
  all_along default_cfg ex_tj (fun k a => legal default_cfg ex_tj k a /\ no_store k /\ ~ may_write default_cfg a k 516) h_then a /\
  fst (run default_cfg h_then s) = [VInt 4; VTest 0 1 (SAt (mkStatus 0 5 13 14))] /\
  seen [504; 516] (run default_cfg h_then s) = Ok [ex_mem 108; ex_mem 516].
Proof.
  cbv zeta. split; [apply ex_reach; vm_compute; reflexivity|]. split.
  { split; [reflexivity|]. exists k_wait. split; [exact comm_wait|]. exists [], p_wait, []. split; [exact earliest_wait|].
    exists ex_vec, int1. split; [vm_compute; reflexivity|]. split; [vm_compute; reflexivity|]. split.
    - exists 1. split; [vm_compute; split; congruence|]. exists (mkPair 0 2), (mkPair 0 2), 4, 4, 0.
      do 4 (split; [vm_compute; reflexivity|]). split; [lia|]. vm_compute; reflexivity.
    - exists 1. split; [vm_compute; split; congruence|]. exists (mkPair 8 2), (mkPair 0 2), 12, 4, 0.
      do 4 (split; [vm_compute; reflexivity|]). split; [lia|]. vm_compute; reflexivity. }
  split; [intros x Hx W; exact (writes_wait x Hx W)|].
  split; [|split; vm_compute; reflexivity].
  assert (B : alongb default_cfg ex_tj (fun _ _ => true) h_then (ex_a h_wait) = true) by (vm_compute; reflexivity).
  apply alongb_legal in B. unfold h_then in *. cbn [all_along] in *. destruct B as (B1 & B2).
  split; [split; [exact B1|]; split; [exact Logic.I|]; intros W; apply writes_wait in W; [lia|unfold TWO64; lia]|].
  destruct (spec default_cfg ex_tj (KIsend 100 2 2 0 5 1) (ex_a h_wait)) as [Q a'| |]; auto. destruct B2 as (B2 & B3).
  split; [split; [exact B2|]; split; [exact Logic.I|intros (y & [])]|]. destruct (spec default_cfg ex_tj (KTest 3 (SAt st0)) a'); auto.
Qed.
