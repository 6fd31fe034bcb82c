(** Status arguments (C25, C26, C28, C34): exactly when an array of statuses is overrun, whatever it is, and which fields a call sets; the positions in an array of requests (C27, C28). *)
From Coq Require Import Lia.
From Verif Require Import Base ListModel TypeModel CopyModel SysModel CollModel SysCalls SysSpec SysReach SysAbs SysEx SysFinal StsSpec StsFacts CountFacts PropsReq.

(** C25: [b] is the longest prefix of ready requests.  If it is longer than the status argument, the call writes outside; otherwise it
    stops on the first request that is not ready; otherwise all are completed. *)
Theorem C25_any_statuses :
  forall (c : cfg) (tj : Z -> tjunk) (s : sys) (a : astate) (n : Z) (rs : list Z) (sts : sargs) (b e : list Z),
    reach c tj s a -> legal_reqs n rs a -> firstn (Z.to_nat n) rs = b ++ e ->
    (forall r, In r b -> ready a r) -> (forall r e', e = r :: e' -> ~ ready a r) ->
    ((slots sts < length b)%nat -> exec c (KWaitall n rs sts) s = UB "bad status pointer") /\
    ((length b <= slots sts)%nat -> e <> [] -> exec c (KWaitall n rs sts) s = Abort "MPI_Waitall: request not complete, deadlock") /\
    ((length b <= slots sts)%nat -> e = [] ->
       exists s' a' sts', does c tj s a (KWaitall n rs sts) (VAll (map (fun _ => MPI_REQUEST_NULL) b ++ skipn (Z.to_nat n) rs) 1 sts') s' a' /\
         wrote_all sts (map (status_of a) b) sts' /\ released_all (filter (fun r => negb (r =? MPI_REQUEST_NULL)) b) a a').
Proof. exact (@C25_any_lemma). Qed.
Print Assumptions C25_any_statuses.
(** MPI_STATUSES_IGNORE: with one ready request before the pending one, the error is reported; with two, memory is overwritten first. *)
Example C25_any_ex :
  exec default_cfg (KWaitall 2 [4; 3] SSIgnore) (ex_s h_three) = Abort "MPI_Waitall: request not complete, deadlock" /\
  exec default_cfg (KWaitall 3 [4; 2; 3] SSIgnore) (ex_s h_three) = UB "bad status pointer".
Proof.
  split.
  - apply (C25_any_statuses default_cfg ex_tj (ex_s h_three) (ex_a h_three) 2 [4; 3] SSIgnore [4] [3] h_three_reach).
    + apply reqsb_ok. vm_compute. reflexivity.
    + reflexivity.
    + intros r [<-|[]]. apply h_three_ready.
    + intros r e' E. injection E as <- _. exact h_three_not.
    + cbn. lia.
    + discriminate.
  - apply (C25_any_statuses default_cfg ex_tj (ex_s h_three) (ex_a h_three) 3 [4; 2; 3] SSIgnore [4; 2] [3] h_three_reach).
    + apply reqsb_ok. vm_compute. reflexivity.
    + reflexivity.
    + intros r [<-|[<-|[]]]; apply h_three_ready.
    + intros r e' E. injection E as <- _. exact h_three_not.
    + cbn. lia.
Qed.

(** C26: MPI_Testall overruns the status argument exactly when some ready request is beyond its end. *)
Theorem C26_any_statuses :
  forall (c : cfg) (tj : Z -> tjunk) (s : sys) (a : astate) (n : Z) (rs : list Z) (sts : sargs), reach c tj s a -> legal_reqs n rs a ->
    let es := firstn (Z.to_nat n) rs in
    ((exists i r, nth_error es i = Some r /\ ready a r /\ (slots sts <= i)%nat) -> exec c (KTestall n rs sts) s = UB "bad status pointer") /\
    ((forall i r, nth_error es i = Some r -> ready a r -> (i < slots sts)%nat) ->
       exists f s' a' sts', exec c (KTestall n rs sts) s = Ok (VAll (map (left_of a) es ++ skipn (Z.to_nat n) rs) f sts', s') /\
         (f = 0 \/ f = 1) /\ (f = 1 <-> forall r, In r es -> ready a r) /\
         wrote_all sts (map (status_of a) es) sts' /\ released_all (complete_of a es) a a' /\ Abs tj s' a').
Proof. exact (@C26_any_lemma). Qed.
Print Assumptions C26_any_statuses.
(** One status is enough when only the first request is ready, and not when the second one is. *)
Example C26_any_ex :
  (exists s' sts', exec default_cfg (KTestall 2 [4; 3] SSIgnore) (ex_s h_three) = Ok (VAll [0; 3] 0 sts', s')) /\
  exec default_cfg (KTestall 2 [3; 4] SSIgnore) (ex_s h_three) = UB "bad status pointer".
Proof.
  split.
  - destruct (proj2 (C26_any_statuses default_cfg ex_tj (ex_s h_three) (ex_a h_three) 2 [4; 3] SSIgnore h_three_reach ltac:(apply reqsb_ok; vm_compute; reflexivity))) as (f & s' & a' & sts' & E & F & N & _).
    { intros [|[|i]] r E Rd; cbn in *; [lia| |destruct i; discriminate]. injection E as <-. destruct (h_three_not Rd). }
    exists s', sts'. rewrite E. assert (f = 0) as ->; [|reflexivity].
    destruct F as [->| ->]; [reflexivity|]. destruct h_three_not. apply N; [reflexivity|]. simpl. auto.
  - apply (C26_any_statuses default_cfg ex_tj (ex_s h_three) (ex_a h_three) 2 [3; 4] SSIgnore h_three_reach ltac:(apply reqsb_ok; vm_compute; reflexivity)).
    exists 1%nat, 4. split; [reflexivity|]. split; [apply h_three_ready|cbn; lia].
Qed.

(** C28: the same for MPI_Testsome and MPI_Waitsome. *)
Theorem C28_any_statuses :
  forall (c : cfg) (tj : Z -> tjunk) K (s : sys) (a : astate) (n : Z) (rs ix : list Z) (sts : sargs), K = KTestsome \/ K = KWaitsome ->
    reach c tj s a -> legal_reqs n rs a ->
    let es := firstn (Z.to_nat n) rs in
    ((exists i r, nth_error es i = Some r /\ ready a r /\ (slots sts <= i)%nat) -> exec c (K n rs ix sts) s = UB "bad status pointer") /\
    ((forall i r, nth_error es i = Some r -> ready a r -> (i < slots sts)%nat) ->
       exists cnt s' a' sts', exec c (K n rs ix sts) s = Ok (VSome (map (left_of a) es ++ skipn (Z.to_nat n) rs) cnt ix sts', s') /\
         cnt = Z.of_nat (length (filter (complete a) es)) /\
         wrote_all sts (map (status_of a) es) sts' /\ released_all (complete_of a es) a a' /\ Abs tj s' a').
Proof. exact (@C28_any_lemma). Qed.
Print Assumptions C28_any_statuses.
Example C28_any_ex : exec default_cfg (KWaitsome 2 [3; 4] [0; 0] (SSAt [st0])) (ex_s h_three) = UB "bad status pointer".
Proof.
  apply (C28_any_statuses default_cfg ex_tj KWaitsome (ex_s h_three) (ex_a h_three) 2 [3; 4] [0; 0] (SSAt [st0]) (or_intror eq_refl) h_three_reach ltac:(apply reqsb_ok; vm_compute; reflexivity)).
  exists 1%nat, 4. split; [reflexivity|]. split; [apply h_three_ready|cbn; lia].
Qed.

(** C27, C28: the positions are never reported, by any call in any state, and MPI_Waitsome is MPI_Testsome. *)
Theorem C27_index_is_never_written :
  forall (c : cfg) K (n : Z) (rs : list Z) (ix : Z) (st : sarg) (s : sys) (rs' : list Z) (ix' f : Z) (st' : sarg) (s' : sys), K = KTestany \/ K = KWaitany ->
    exec c (K n rs ix st) s = Ok (VAny rs' ix' f st', s') -> ix' = ix.
Proof. exact C27_any_lemma. Qed.
Print Assumptions C27_index_is_never_written.
(** The hypothesis is met in C27_index_refuted. *)
Theorem C28_positions_are_never_written :
  forall (c : cfg) K (n : Z) (rs ix : list Z) (sts : sargs) (s : sys) (rs' : list Z) (o : Z) (ix' : list Z) (sts' : sargs) (s' : sys), K = KTestsome \/ K = KWaitsome ->
    exec c (K n rs ix sts) s = Ok (VSome rs' o ix' sts', s') -> ix' = ix.
Proof. exact C28_positions_lemma. Qed.
Print Assumptions C28_positions_are_never_written.
Theorem C28_waitsome_is_testsome :
  forall (c : cfg) (n : Z) (rs ix : list Z) (sts : sargs) (s : sys), exec c (KWaitsome n rs ix sts) s = exec c (KTestsome n rs ix sts) s.
Proof. exact C28_same_lemma. Qed.
Print Assumptions C28_waitsome_is_testsome.
(** The hypotheses are met in C28_waitsome_refuted. *)

(** C34: whatever the state, the error field of a status is never set by any call, and the count only by MPI_Recv, to the count
    that it was given.  So MPI_Get_count and MPI_Get_elements of the status of any other call report what was there before. *)
Theorem C34_only_recv_sets_the_count :
  forall (c : cfg) (k : call) (s : sys) (o : out) (s' : sys), exec c k s = Ok (o, s') ->
    map st_error (found o) = map st_error (passed k) /\
    map st_count (found o) = match k with KRecv _ n _ _ _ _ _ => map (fun _ => n) (passed k) | _ => map st_count (passed k) end.
Proof. exact C34_any_lemma. Qed.
Print Assumptions C34_only_recv_sets_the_count.
Example C34_any_ex : exists s', exec default_cfg (KWaitall 2 [4; 2] sts3) (ex_s h_three) = Ok (VAll [0; 0] 1 (SSAt [mkStatus 2 3 13 14; mkStatus 0 5 13 14; st0]), s') /\
  passed (KWaitall 2 [4; 2] sts3) = [st0; st0; st0] /\ st_count st0 = 14.
Proof. eexists. split; [vm_compute; reflexivity|]. split; reflexivity. Qed.
