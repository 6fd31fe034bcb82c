(** Property theorems about message matching: C09 to C14, and C76 (every history acts as specified). *)
From Coq Require Import Sorting.Sorted.
From Verif Require Import Base HandleExact TypeModel CopyModel CopyEx SysModel CollModel SysCalls SysSpec SysLog SysReach SysAbs SysSim3 SysFacts SysFacts2 SysFacts3 SysFinal SysEx.

(** C76: from program start, whatever the junk in fresh storage, every history of legal calls acts as specified in SysSpec.v:
    each call returns with the specified outputs and memory, or aborts or exits with the specified diagnostic. *)
Theorem C76_every_history_acts_as_specified :
  forall (c : cfg) (tj : Z -> tjunk) hj lj rj (m : mem), behaves c tj (sys_start hj lj rj tj m) (a_start m).
Proof. exact behaves_start. Qed.
Print Assumptions C76_every_history_acts_as_specified.
(** A legal history of nine calls, and what it returns. *)
Definition h_mix : list call :=
  [KInit; KIrecv 500 2 INTT 0 5 1; KIsend 100 2 INTT 0 5 1; KWait 2 (SAt st0); KCommDup 1; KIsend 200 1 INTT 0 9 2; KRecv 600 1 INTT (-1) (-1) 2 (SAt st0);
   KTypeCreate (TVector 2 1 2 INTT); KTypeCommit 5].
Example C76_ex : exists os, go default_cfg ex_tj h_mix ex_start (a_start ex_mem) = Some (os, ex_s h_mix, ex_a h_mix) /\
  os = [VUnit; VInt 2; VInt 3; VWait 0 (SAt (mkStatus 0 5 13 14)); VInt 2; VInt 4; VStatus (SAt (mkStatus 0 9 13 1)); VInt 5; VUnit].
Proof. exists (ex_o h_mix). split; [unfold ex_o, ex_s, ex_a, ex_go; destruct (go default_cfg ex_tj h_mix ex_start (a_start ex_mem)) as [[[o s] a]|] eqn:E; [reflexivity|exfalso; revert E; vm_compute; discriminate]|vm_compute; reflexivity]. Qed.

(** Three sends are pending, with tags 7, 5, 5; or three receives, with tags 7, 5 and any. *)
Definition h_sends : list call := [KInit; KIsend 100 2 INTT 0 7 1; KIsend 200 2 INTT 0 5 1; KIsend 300 2 INTT 0 5 1].
Definition h_recvs : list call := [KInit; KIrecv 100 2 INTT 0 7 1; KIrecv 200 2 INTT 0 5 1; KIrecv 300 2 INTT (-1) (-1) 1].

(** C09: a receive takes the earliest pending send that matches and completes at once; otherwise it is queued last.
    [paired] and [queued] say that nothing else changes.  ([xfer_res = Ok]: the data transfer itself does not end the program.) *)
Theorem C09_receive_takes_earliest_matching_send :
  forall (c : cfg) (tj : Z -> tjunk) (s : sys) (a : astate) (b n t so g cm : Z) (k : acomm),
    reach c tj s a -> has_handle a -> room a -> comm_at a cm = Some k -> so = 0 \/ so = MPI_ANY_SOURCE ->
    (forall bf p e m, earliest Rcv g k bf p e -> xfer_res c a (p_buf p) n t b n t = Ok m ->
       exists h s' a', does c tj s a (KIrecv b n t so g cm) (VInt h) s' a' /\ paired Rcv a cm k (a_clock a) h g bf p e m a') /\
    (none_goes Rcv g k ->
       exists h s' a', does c tj s a (KIrecv b n t so g cm) (VInt h) s' a' /\ queued Rcv a cm k (mkPend (a_clock a) h b n t g) a').
Proof. exact (@C09_lemma). Qed.
Print Assumptions C09_receive_takes_earliest_matching_send.
Example C09_ex : exists k m,
  reach default_cfg ex_tj (ex_s h_sends) (ex_a h_sends) /\ has_handle (ex_a h_sends) /\ room (ex_a h_sends) /\ comm_at (ex_a h_sends) 1 = Some k /\
  earliest Rcv 5 k [mkPend 0 2 100 2 INTT 7] (mkPend 1 3 200 2 INTT 5) [mkPend 2 4 300 2 INTT 5] /\
  xfer_res default_cfg (ex_a h_sends) 200 2 INTT 600 2 INTT = Ok m /\ none_goes Rcv 6 k.
Proof.
  destruct (okb_ok (xfer_res default_cfg (ex_a h_sends) 200 2 INTT 600 2 INTT)) as [m Em]; [vm_compute; reflexivity|].
  eexists; exists m. split; [apply ex_reach; vm_compute; reflexivity|]. split; [vm_compute; discriminate|]. split; [vm_compute; reflexivity|].
  split; [vm_compute; reflexivity|]. split; [|split; [exact Em|]].
  - split; [reflexivity|]. split; [reflexivity|]. intros q [<-|[]]; reflexivity.
  - intros q [<-|[<-|[<-|[]]]]; reflexivity.
Qed.

(** C10: the same for a send and the pending receives. *)
Theorem C10_send_satisfies_earliest_matching_receive :
  forall (c : cfg) (tj : Z -> tjunk) (s : sys) (a : astate) (b n t g cm : Z) (k : acomm),
    reach c tj s a -> has_handle a -> room a -> comm_at a cm = Some k ->
    (forall bf p e m, earliest Snd g k bf p e -> xfer_res c a b n t (p_buf p) (p_count p) (p_type p) = Ok m ->
       exists h s' a', does c tj s a (KIsend b n t 0 g cm) (VInt h) s' a' /\ paired Snd a cm k (a_clock a) h g bf p e m a') /\
    (none_goes Snd g k ->
       exists h s' a', does c tj s a (KIsend b n t 0 g cm) (VInt h) s' a' /\ queued Snd a cm k (mkPend (a_clock a) h b n t g) a').
Proof. exact (@C10_lemma). Qed.
Print Assumptions C10_send_satisfies_earliest_matching_receive.
Example C10_ex : exists k m,
  reach default_cfg ex_tj (ex_s h_recvs) (ex_a h_recvs) /\ has_handle (ex_a h_recvs) /\ room (ex_a h_recvs) /\ comm_at (ex_a h_recvs) 1 = Some k /\
  earliest Snd 5 k [mkPend 0 2 100 2 INTT 7] (mkPend 1 3 200 2 INTT 5) [mkPend 2 4 300 2 INTT (-1)] /\
  earliest Snd 6 k [mkPend 0 2 100 2 INTT 7; mkPend 1 3 200 2 INTT 5] (mkPend 2 4 300 2 INTT (-1)) [] /\
  xfer_res default_cfg (ex_a h_recvs) 600 2 INTT 200 2 INTT = Ok m.
Proof.
  destruct (okb_ok (xfer_res default_cfg (ex_a h_recvs) 600 2 INTT 200 2 INTT)) as [m Em]; [vm_compute; reflexivity|].
  eexists; exists m. split; [apply ex_reach; vm_compute; reflexivity|]. split; [vm_compute; discriminate|]. split; [vm_compute; reflexivity|].
  split; [vm_compute; reflexivity|]. split; [|split; [|exact Em]].
  - split; [reflexivity|]. split; [reflexivity|]. intros q [<-|[]]; reflexivity.
  - split; [reflexivity|]. split; [reflexivity|]. intros q [<-|[<-|[]]]; reflexivity.
Qed.
Example C10_none_ex : exists k, comm_at (ex_a h_sends) 1 = Some k /\ none_goes Snd 5 k.
Proof. eexists. split; [vm_compute; reflexivity|]. intros q []. Qed.

(** C11: no pending send could be received by a pending receive of the same communicator. *)
Theorem C11_no_matching_pair_pending :
  forall (c : cfg) (tj : Z -> tjunk) (s : sys) (a : astate) (h : Z) (k : acomm) (p q : pend),
    reach c tj s a -> comm_at a h = Some k -> In p (k_sends k) -> In q (k_recvs k) -> accepts (p_tag q) (p_tag p) = false.
Proof. exact (@C11_lemma). Qed.
Print Assumptions C11_no_matching_pair_pending.
(** Two sends and two receives pending on the same communicator. *)
Definition h_both : list call := [KInit; KIsend 100 2 INTT 0 7 1; KIrecv 200 2 INTT 0 5 1; KIsend 300 2 INTT 0 8 1; KIrecv 400 2 INTT 0 6 1].
Example C11_ex : exists k p q p' q', reach default_cfg ex_tj (ex_s h_both) (ex_a h_both) /\ comm_at (ex_a h_both) 1 = Some k /\ k_sends k = [p; p'] /\ k_recvs k = [q; q'].
Proof. do 5 eexists. split; [apply ex_reach; vm_compute; reflexivity|]. split; [vm_compute; reflexivity|]. split; reflexivity. Qed.

(** C12: of two sends on one communicator with the same tag, the one posted second is matched only after the first. *)
Theorem C12_sends_do_not_overtake :
  forall (c : cfg) (tj : Z -> tjunk) (s : sys) (a : astate) (uid tag s1 s2 r2 : Z) (l1 l2 : list event),
    reach c tj s a -> a_log a = l1 ++ EMatch s2 r2 :: l2 ->
    In (EPost s1 Snd uid tag) (a_log a) -> In (EPost s2 Snd uid tag) (a_log a) -> s1 < s2 -> exists r1, In (EMatch s1 r1) l1.
Proof. exact (@C12_sends_lemma). Qed.
Print Assumptions C12_sends_do_not_overtake.
(** The same for two receives that both accept the message. *)
Theorem C12_receives_do_not_overtake :
  forall (c : cfg) (tj : Z -> tjunk) (s : sys) (a : astate) (uid w1 w2 tag r1 r2 s2 : Z) (l1 l2 : list event),
    reach c tj s a -> a_log a = l1 ++ EMatch s2 r2 :: l2 -> In (EPost s2 Snd uid tag) (a_log a) ->
    In (EPost r1 Rcv uid w1) (a_log a) -> In (EPost r2 Rcv uid w2) (a_log a) -> r1 < r2 -> accepts w1 tag = true -> exists s1, In (EMatch s1 r1) l1.
Proof. exact (@C12_recvs_lemma). Qed.
Print Assumptions C12_receives_do_not_overtake.
Example C12_ex :
  (let ks := h_sends ++ [KIrecv 600 2 INTT 0 5 1; KIrecv 700 2 INTT 0 (-1) 1; KIrecv 800 2 INTT 0 5 1] in
   reach default_cfg ex_tj (ex_s ks) (ex_a ks) /\
   a_log (ex_a ks) = [EPost 0 Snd 0 7; EPost 1 Snd 0 5; EPost 2 Snd 0 5; EPost 3 Rcv 0 5; EMatch 1 3; EPost 4 Rcv 0 (-1); EMatch 0 4; EPost 5 Rcv 0 5] ++ EMatch 2 5 :: []) /\
  (let ks := h_recvs ++ [KIsend 600 2 INTT 0 5 1; KIsend 700 2 INTT 0 5 1] in
   reach default_cfg ex_tj (ex_s ks) (ex_a ks) /\
   a_log (ex_a ks) = [EPost 0 Rcv 0 7; EPost 1 Rcv 0 5; EPost 2 Rcv 0 (-1); EPost 3 Snd 0 5; EMatch 3 1; EPost 4 Snd 0 5] ++ EMatch 4 2 :: []).
Proof. split; (split; [apply ex_reach|]); vm_compute; reflexivity. Qed.

(** C13: while a communicator is alive its two queues hold exactly the operations posted on it and not matched, in the order
    of posting, each with its own request ... *)
Theorem C13_queues_hold_the_unmatched :
  forall (c : cfg) (tj : Z -> tjunk) (s : sys) (a : astate) (h : Z) (k : acomm) (sd : side), reach c tj s a -> comm_at a h = Some k ->
    map (fun p => (p_id p, p_tag p)) (line sd k) = waiting (a_log a) sd (k_uid k) /\
    (forall id tag, In (id, tag) (waiting (a_log a) sd (k_uid k)) <-> In (EPost id sd (k_uid k) tag) (a_log a) /\ ~ matched (a_log a) id) /\
    StronglySorted Z.lt (map p_id (line sd k)) /\
    (forall p, In p (line sd k) -> req_at a (p_req p) = Some (QPending sd (k_uid k) (p_id p))).
Proof. exact (@C13_queues_lemma). Qed.
Print Assumptions C13_queues_hold_the_unmatched.
(** ... and every match joins a send and a receive posted before on the same communicator, neither of which is matched at any
    other time. *)
Theorem C13_matched_at_most_once :
  forall (c : cfg) (tj : Z -> tjunk) (s : sys) (a : astate) (l1 : list event) (sid rid : Z) (l2 : list event),
    reach c tj s a -> a_log a = l1 ++ EMatch sid rid :: l2 ->
    (exists uid tag want, In (EPost sid Snd uid tag) l1 /\ In (EPost rid Rcv uid want) l1 /\ accepts want tag = true) /\
    ~ matched l1 sid /\ ~ matched l1 rid /\ ~ matched l2 sid /\ ~ matched l2 rid.
Proof. exact (@C13_once_lemma). Qed.
Print Assumptions C13_matched_at_most_once.
Example C13_ex : let ks := h_recvs ++ [KCommDup 1; KIsend 600 2 INTT 0 5 5; KIsend 600 2 INTT 0 5 1; KWait 3 (SAt st0)] in
  reach default_cfg ex_tj (ex_s ks) (ex_a ks) /\
  (exists k p q, comm_at (ex_a ks) 1 = Some k /\ line Rcv k = [p; q]) /\ (exists k p, comm_at (ex_a ks) 5 = Some k /\ line Snd k = [p]) /\
  exists l1 l2, a_log (ex_a ks) = l1 ++ EMatch 4 1 :: l2.
Proof.
  cbv zeta. split; [apply ex_reach; vm_compute; reflexivity|]. split; [do 3 eexists; split; [vm_compute; reflexivity|reflexivity]|].
  split; [do 2 eexists; split; [vm_compute; reflexivity|reflexivity]|].
  exists [EPost 0 Rcv 0 7; EPost 1 Rcv 0 5; EPost 2 Rcv 0 (-1); EPost 3 Snd 1 5; EPost 4 Snd 0 5], []. vm_compute. reflexivity.
Qed.

(** C14: a call that does not name communicator [h] leaves its queues and the requests pending on it as they are. *)
Theorem C14_communicators_isolate :
  forall (c : cfg) (tj : Z -> tjunk) (s : sys) (a : astate) (h : Z) (kk : acomm) (k : call) (o : out) (s' : sys) (a' : astate),
    reach c tj s a -> comm_at a h = Some kk -> does c tj s a k o s' a' -> k <> KFinalize -> comm_of k <> Some h ->
    comm_at a' h = Some kk /\
    (forall x sd id, req_at a x = Some (QPending sd (k_uid kk) id) -> req_at a' x = Some (QPending sd (k_uid kk) id)).
Proof. exact (@C14_lemma). Qed.
Print Assumptions C14_communicators_isolate.
(** A receive is pending on a communicator and on its duplicate; a send with that tag on the duplicate. *)
Definition h_dup : list call := [KInit; KCommDup 1; KIrecv 100 2 INTT 0 7 1; KIrecv 200 2 INTT 0 7 2].
Example C14_ex : exists kk o s' a', reach default_cfg ex_tj (ex_s h_dup) (ex_a h_dup) /\ comm_at (ex_a h_dup) 1 = Some kk /\ k_recvs kk <> [] /\
  does default_cfg ex_tj (ex_s h_dup) (ex_a h_dup) (KIsend 300 2 INTT 0 7 2) o s' a' /\ comm_of (KIsend 300 2 INTT 0 7 2) <> Some 1 /\
  req_at (ex_a h_dup) 3 = Some (QPending Rcv (k_uid kk) 0).
Proof.
  destruct (ex_does h_dup (KIsend 300 2 INTT 0 7 2) eq_refl) as (o & s' & a' & D).
  eexists; exists o, s', a'. split; [apply ex_reach; vm_compute; reflexivity|]. split; [vm_compute; reflexivity|]. split; [discriminate|].
  split; [exact D|]. split; [discriminate|]. vm_compute. reflexivity.
Qed.
