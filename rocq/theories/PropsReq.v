(** Property theorems about requests, blocking calls, probes and request arrays: C15 to C29. *)
From Verif Require Import Base HandleExact TypeModel CopyModel CopyEx SysModel CollModel SysCalls SysSpec SysLog SysReach SysFacts SysFacts2 SysFacts3 SysFacts4 SysFinal SysEx PropsMatch.

(** C15: operations with MPI_PROC_NULL.  The only effect of Isend/Irecv is a new request, already complete. *)
Theorem C15_isend_to_proc_null :
  forall (c : cfg) (tj : Z -> tjunk) (s : sys) (a : astate) (b n t g cm : Z), reach c tj s a -> has_handle a -> known a cm ->
    exists h s' a', does c tj s a (KIsend b n t MPI_PROC_NULL g cm) (VInt h) s' a' /\ added h (AReq QNullSend) a a'.
Proof. exact (@C15_isend_lemma). Qed.
Print Assumptions C15_isend_to_proc_null.
Theorem C15_irecv_from_proc_null :
  forall (c : cfg) (tj : Z -> tjunk) (s : sys) (a : astate) (b n t g cm : Z), reach c tj s a -> has_handle a -> known a cm ->
    exists h s' a', does c tj s a (KIrecv b n t MPI_PROC_NULL g cm) (VInt h) s' a' /\ added h (AReq QNullRecv) a a' /\
      (* the request is complete, and its status is that of MPI_PROC_NULL *)
      forall st, st <> SBad -> exists st' s2 a2, does c tj s' a' (KTest h st) (VTest MPI_REQUEST_NULL 1 st') s2 a2 /\
        wrote st (Write (Some MPI_PROC_NULL) (Some MPI_ANY_TAG)) st' /\ released h a' a2.
Proof. exact (@C15_irecv_test_lemma). Qed.
Print Assumptions C15_irecv_from_proc_null.
Theorem C15_send_to_proc_null :
  forall (c : cfg) (tj : Z -> tjunk) K (s : sys) (a : astate) (b n t g cm : Z), is_send K -> reach c tj s a -> has_handle a -> known a cm ->
    exists s' a', does c tj s a (K b n t MPI_PROC_NULL g cm) VUnit s' a' /\ unchanged a a'.
Proof. exact (@C15_send_lemma). Qed.
Print Assumptions C15_send_to_proc_null.
Theorem C15_recv_from_proc_null :
  forall (c : cfg) (tj : Z -> tjunk) (s : sys) (a : astate) (b n t g cm : Z) (st : sarg), reach c tj s a -> has_handle a -> known a cm -> st <> SBad ->
    exists s' a' st', does c tj s a (KRecv b n t MPI_PROC_NULL g cm st) (VStatus (with_count st' n)) s' a' /\
      wrote st (Write (Some MPI_PROC_NULL) (Some MPI_ANY_TAG)) st' /\ unchanged a a'.
Proof. exact (@C15_recv_lemma). Qed.
Print Assumptions C15_recv_from_proc_null.
Example C15_ex : reach default_cfg ex_tj (ex_s h_both) (ex_a h_both) /\ has_handle (ex_a h_both) /\ known (ex_a h_both) 1.
Proof. split; [apply ex_reach; vm_compute; reflexivity|]. split; [vm_compute; discriminate|]. right. vm_compute. discriminate. Qed.

(** C16: other ranks end the program.  (An abort leaves no state: nothing was done that a later call could see.) *)
Theorem C16_send_to_other_rank :
  forall (c : cfg) (tj : Z -> tjunk) K (s : sys) (a : astate) (b n t d g cm : Z), is_send K \/ K = KIsend \/ K = KIrsend ->
    reach c tj s a -> known a cm -> d <> 0 -> d <> MPI_PROC_NULL -> exec c (K b n t d g cm) s = Abort "MPI_Isend: send to".
Proof. exact (@C16_send_lemma). Qed.
Print Assumptions C16_send_to_other_rank.
Theorem C16_receive_from_other_rank :
  forall (c : cfg) (tj : Z -> tjunk) (s : sys) (a : astate) (b n t d g cm : Z), reach c tj s a -> known a cm -> d <> 0 -> d <> MPI_ANY_SOURCE -> d <> MPI_PROC_NULL ->
    exec c (KIrecv b n t d g cm) s = Abort "MPI_Irecv: bad source" /\
    (forall st, st <> SBad -> exec c (KRecv b n t d g cm st) s = Abort "MPI_Irecv: bad source") /\
    (forall sb sn sty de sg st, st <> SBad -> exec c (KSendrecv sb sn sty de sg b n t d g cm st) s = Abort "MPI_Irecv: bad source").
Proof. exact (@C16_recv_lemma). Qed.
Print Assumptions C16_receive_from_other_rank.
Theorem C16_probe_of_other_rank :
  forall (c : cfg) (tj : Z -> tjunk) (s : sys) (a : astate) (d g cm : Z) (st : sarg), reach c tj s a -> known a cm -> st <> SBad -> d <> 0 -> d <> MPI_ANY_SOURCE ->
    exec c (KIprobe d g cm st) s = Abort "MPI_Irecv: bad source" /\ exec c (KProbe d g cm st) s = Abort "MPI_Irecv: bad source".
Proof. exact (@C16_probe_lemma). Qed.
Print Assumptions C16_probe_of_other_rank.
(** The hypotheses are those of C15_ex; the calls in that state. *)
Example C16_ex : exec default_cfg (KSend 100 1 INTT 1 5 1) (ex_s h_both) = Abort "MPI_Isend: send to" /\
  exec default_cfg (KIrecv 100 1 INTT 1 5 1) (ex_s h_both) = Abort "MPI_Irecv: bad source".
Proof. split; vm_compute; reflexivity. Qed.

(** C17: when the operation of a request is a receive that has been matched by send [sid], whenever that was, Test and Wait
    report source 0 and the tag with which [sid] was posted.  (For Recv and Sendrecv: C21, C22.) *)
Theorem C17_status_of_a_completed_receive :
  forall (c : cfg) (tj : Z -> tjunk) (s : sys) (a : astate) (r : Z) (q : areq) (id uid want sid uid' tag : Z) (st : sarg),
    reach c tj s a -> req_at a r = Some q -> op_id q = Some id ->
    In (EPost id Rcv uid want) (a_log a) -> In (EMatch sid id) (a_log a) -> In (EPost sid Snd uid' tag) (a_log a) -> st <> SBad ->
    exists st' s' a', does c tj s a (KTest r st) (VTest MPI_REQUEST_NULL 1 st') s' a' /\ does c tj s a (KWait r st) (VWait MPI_REQUEST_NULL st') s' a' /\
      wrote st (Write (Some 0) (Some tag)) st'.
Proof. exact (@C17_lemma). Qed.
Print Assumptions C17_status_of_a_completed_receive.
(** Other traffic keeps a request: it goes on standing for the same operation, and does not change once that is matched. *)
Theorem C17_requests_persist :
  forall (c : cfg) (tj : Z -> tjunk) (s : sys) (a : astate) (k : call) (o : out) (s' : sys) (a' : astate) (r : Z) (q : areq),
    reach c tj s a -> does c tj s a k o s' a' -> k <> KFinalize -> ~ In r (reqs_of k) -> req_at a r = Some q ->
    exists q', req_at a' r = Some q' /\ op_id q' = op_id q /\ (finished a q -> q' = q) /\ (exists l, a_log a' = a_log a ++ l).
Proof. exact (@C17_persists_lemma). Qed.
Print Assumptions C17_requests_persist.
(** A receive of any tag is matched by a message with tag 9, then more traffic follows on the same communicator. *)
Definition h_any : list call := [KInit; KIrecv 500 2 INTT 0 (-1) 1; KIsend 100 2 INTT 0 9 1; KIsend 200 2 INTT 0 3 1; KWait 3 (SAt st0); KIrecv 600 2 INTT 0 3 1; KIrecv 700 1 INTT 0 4 1].
Example C17_ex : reach default_cfg ex_tj (ex_s h_any) (ex_a h_any) /\ req_at (ex_a h_any) 2 = Some (QReceived 0 9) /\
  In (EPost 0 Rcv 0 (-1)) (a_log (ex_a h_any)) /\ In (EMatch 1 0) (a_log (ex_a h_any)) /\ In (EPost 1 Snd 0 9) (a_log (ex_a h_any)) /\
  exists s' a', does default_cfg ex_tj (ex_s h_any) (ex_a h_any) (KIsend 300 1 INTT 0 4 1) (VInt 6) s' a' /\ ~ In 2 (reqs_of (KIsend 300 1 INTT 0 4 1)).
Proof.
  split; [apply ex_reach; vm_compute; reflexivity|]. split; [vm_compute; reflexivity|]. split; [vm_compute; auto 10|]. split; [vm_compute; auto 10|].
  split; [vm_compute; auto 10|]. destruct (ex_does h_any (KIsend 300 1 INTT 0 4 1)) as (o & s' & a' & D); [vm_compute; reflexivity|].
  exists s', a'. split; [|intros []]. replace o with (VInt 6) in D; auto. destruct D as (_ & X & _).
  assert (Y : match exec default_cfg (KIsend 300 1 INTT 0 4 1) (ex_s h_any) with Ok (VInt 6, _) => true | _ => false end = true) by (vm_compute; reflexivity).
  rewrite X in Y. clear X. destruct o as [|z| | | | | | | |]; try discriminate. repeat (destruct z as [|z|]; try discriminate; try reflexivity); repeat (destruct z; try discriminate; try reflexivity).
Qed.

(** C18: Test completes a request exactly when its operation is finished, and then releases exactly that request; otherwise
    nothing at all changes.  A null request is complete. *)
Theorem C18_test :
  forall (c : cfg) (tj : Z -> tjunk) (s : sys) (a : astate) (r : Z) (q : areq) (st : sarg), reach c tj s a -> req_at a r = Some q -> st <> SBad ->
    (finished a q -> exists w st' s' a', does c tj s a (KTest r st) (VTest MPI_REQUEST_NULL 1 st') s' a' /\ report q = Some w /\ wrote st w st' /\ released r a a') /\
    (~ finished a q -> exec c (KTest r st) s = Ok (VTest r 0 st, s)).
Proof. exact (@C18_test_lemma). Qed.
Print Assumptions C18_test.
Theorem C18_test_null :
  forall (c : cfg) (s : sys) (st : sarg), st <> SBad -> exists st', exec c (KTest MPI_REQUEST_NULL st) s = Ok (VTest MPI_REQUEST_NULL 1 st', s) /\
    wrote st (Write (Some MPI_ANY_SOURCE) (Some MPI_ANY_TAG)) st'.
Proof. exact (@C18_null_lemma). Qed.
Print Assumptions C18_test_null.
(** Request 2 is finished, request 6 is not. *)
Example C18_ex : reach default_cfg ex_tj (ex_s h_any) (ex_a h_any) /\
  (exists q, req_at (ex_a h_any) 2 = Some q /\ finished (ex_a h_any) q) /\ (exists q, req_at (ex_a h_any) 5 = Some q /\ ~ finished (ex_a h_any) q).
Proof.
  split; [apply ex_reach; vm_compute; reflexivity|]. split; eexists; (split; [vm_compute; reflexivity|]).
  - cbn. exists 1, 0. split; [vm_compute; auto 10|auto].
  - intros (x & y & H & D). revert H. vm_compute. intros H. repeat (destruct H as [H|H]; [first [discriminate H|injection H as <- <-; destruct D; discriminate]|]). exact H.
Qed.

(** C19: Wait returns in the same cases as Test, with the same effect, and aborts on a pending request. *)
Theorem C19_wait :
  forall (c : cfg) (tj : Z -> tjunk) (s : sys) (a : astate) (r : Z) (q : areq) (st : sarg), reach c tj s a -> req_at a r = Some q -> st <> SBad ->
    (finished a q -> exists w st' s' a', does c tj s a (KWait r st) (VWait MPI_REQUEST_NULL st') s' a' /\ report q = Some w /\ wrote st w st' /\ released r a a' /\
       exec c (KTest r st) s = Ok (VTest MPI_REQUEST_NULL 1 st', s')) /\
    (~ finished a q -> exec c (KWait r st) s = Abort "MPI_Wait: request not complete, deadlock").
Proof. exact (@C19_wait_lemma). Qed.
Print Assumptions C19_wait.
Theorem C19_wait_null :
  forall (c : cfg) (s : sys) (st : sarg), st <> SBad -> exists st', exec c (KWait MPI_REQUEST_NULL st) s = Ok (VWait MPI_REQUEST_NULL st', s) /\
    wrote st (Write (Some MPI_ANY_SOURCE) (Some MPI_ANY_TAG)) st'.
Proof. exact (@C19_null_lemma). Qed.
Print Assumptions C19_wait_null.
(** The hypotheses are those of C18_ex. *)
Example C19_ex : exec default_cfg (KWait 5 (SAt st0)) (ex_s h_any) = Abort "MPI_Wait: request not complete, deadlock" /\
  match exec default_cfg (KWait 2 (SAt st0)) (ex_s h_any) with Ok (o, _) => o = VWait 0 (SAt (mkStatus 0 9 13 14)) | _ => False end.
Proof. split; vm_compute; reflexivity. Qed.

(** C20: MPI_Send, MPI_Ssend and MPI_Rsend ([is_send]) to rank 0.  (To MPI_PROC_NULL: C15; elsewhere: C16.)  They return exactly
    if a matching receive is pending and the copy does not end the program; [absorbed]: no request is left. *)
Theorem C20_blocking_send :
  forall (c : cfg) (tj : Z -> tjunk) K (s : sys) (a : astate) (b n t g cm : Z) (k : acomm),
    is_send K -> reach c tj s a -> has_handle a -> room a -> comm_at a cm = Some k ->
    (forall bf p e, earliest Snd g k bf p e ->
       (forall m, xfer_res c a b n t (p_buf p) (p_count p) (p_type p) = Ok m ->
          exists s' a', does c tj s a (K b n t 0 g cm) VUnit s' a' /\ absorbed Snd a cm k (a_clock a) g bf p e m a') /\
       (forall code msg, xfer_res c a b n t (p_buf p) (p_count p) (p_type p) = Exit code msg -> exec c (K b n t 0 g cm) s = Exit code msg)) /\
    (none_goes Snd g k -> exec c (K b n t 0 g cm) s = Abort "MPI_Wait: request not complete, deadlock").
Proof. exact (@C20_lemma). Qed.
Print Assumptions C20_blocking_send.
(** The hypotheses are those of C10_ex and C10_none_ex; a copy that ends the program (the receive asks for two elements): *)
Example C20_ex : xfer_res default_cfg (ex_a h_recvs) 600 1 INTT 200 2 INTT = Exit 1 "copy_data: Trying to over-receive" /\
  exec default_cfg (KSend 600 2 INTT 0 6 1) (ex_s h_sends) = Abort "MPI_Wait: request not complete, deadlock" /\
  match exec default_cfg (KSend 600 2 INTT 0 5 1) (ex_s h_recvs) with Ok (o, _) => o = VUnit | _ => False end.
Proof. split; [|split]; vm_compute; reflexivity. Qed.

(** C21: MPI_Recv. *)
Theorem C21_blocking_receive :
  forall (c : cfg) (tj : Z -> tjunk) (s : sys) (a : astate) (b n t so g cm : Z) (k : acomm) (st : sarg),
    reach c tj s a -> has_handle a -> room a -> comm_at a cm = Some k -> so = 0 \/ so = MPI_ANY_SOURCE -> st <> SBad ->
    (forall bf p e, earliest Rcv g k bf p e ->
       (forall m, xfer_res c a (p_buf p) n t b n t = Ok m ->
          exists s' a' st', does c tj s a (KRecv b n t so g cm st) (VStatus (with_count st' n)) s' a' /\ wrote st (Write (Some 0) (Some (p_tag p))) st' /\
            absorbed Rcv a cm k (a_clock a) g bf p e m a') /\
       (forall code msg, xfer_res c a (p_buf p) n t b n t = Exit code msg -> exec c (KRecv b n t so g cm st) s = Exit code msg)) /\
    (none_goes Rcv g k -> exec c (KRecv b n t so g cm st) s = Abort "MPI_Wait: request not complete, deadlock").
Proof. exact (@C21_lemma). Qed.
Print Assumptions C21_blocking_receive.
(** The hypotheses are those of C09_ex. *)
Example C21_ex : match exec default_cfg (KRecv 600 2 INTT (-1) (-1) 1 (SAt st0)) (ex_s h_sends) with Ok (o, _) => o = VStatus (SAt (mkStatus 0 7 13 2)) | _ => False end.
Proof. vm_compute. reflexivity. Qed.

(** C22: MPI_Sendrecv on an idle communicator. *)
Theorem C22_sendrecv_to_self :
  forall (c : cfg) (tj : Z -> tjunk) (s : sys) (a : astate) (sb sn sty sg rb rn rt so rg cm : Z) (k : acomm) (st : sarg),
    reach c tj s a -> has_two a -> a_items a + 1 < INT_MAX -> comm_at a cm = Some k -> idle k -> so = 0 \/ so = MPI_ANY_SOURCE -> st <> SBad ->
    (accepts rg sg = true ->
       (forall m, xfer_res c a sb sn sty rb rn rt = Ok m ->
          exists s' a' st', does c tj s a (KSendrecv sb sn sty 0 sg rb rn rt so rg cm st) (VStatus st') s' a' /\
            wrote st (Write (Some 0) (Some sg)) st' /\ a_mem a' = m /\ (forall x, a_obj a' x = a_obj a x) /\
            a_log a' = a_log a ++ [EPost (a_clock a) Rcv (k_uid k) rg; EPost (a_clock a + 1) Snd (k_uid k) sg; EMatch (a_clock a + 1) (a_clock a)]) /\
       (forall code msg, xfer_res c a sb sn sty rb rn rt = Exit code msg -> exec c (KSendrecv sb sn sty 0 sg rb rn rt so rg cm st) s = Exit code msg)) /\
    (accepts rg sg = false -> exec c (KSendrecv sb sn sty 0 sg rb rn rt so rg cm st) s = Abort "MPI_Wait: request not complete, deadlock").
Proof. exact (@C22_lemma). Qed.
Print Assumptions C22_sendrecv_to_self.
(** Communicator 2 is idle while communicator 1 has traffic. *)
Definition h_idle : list call := [KInit; KCommDup 1; KIrecv 100 2 INTT 0 7 1].
Example C22_ex : exists k m, reach default_cfg ex_tj (ex_s h_idle) (ex_a h_idle) /\ has_two (ex_a h_idle) /\ a_items (ex_a h_idle) + 1 < INT_MAX /\
  comm_at (ex_a h_idle) 2 = Some k /\ idle k /\ accepts (-1) 7 = true /\ xfer_res default_cfg (ex_a h_idle) 300 2 INTT 500 2 INTT = Ok m.
Proof.
  destruct (okb_ok (xfer_res default_cfg (ex_a h_idle) 300 2 INTT 500 2 INTT)) as [m Em]; [vm_compute; reflexivity|].
  eexists; exists m. split; [apply ex_reach; vm_compute; reflexivity|]. split; [do 3 eexists; split; [vm_compute; reflexivity|vm_compute; discriminate]|].
  split; [vm_compute; reflexivity|]. split; [vm_compute; reflexivity|]. split; [split; reflexivity|]. split; [reflexivity|exact Em].
Qed.

(** C23: MPI_Irsend. *)
Theorem C23_ready_send :
  forall (c : cfg) (tj : Z -> tjunk) (s : sys) (a : astate) (b n t g cm : Z) (k : acomm), reach c tj s a -> has_handle a -> room a -> comm_at a cm = Some k ->
    (forall bf p e m, earliest Snd g k bf p e -> xfer_res c a b n t (p_buf p) (p_count p) (p_type p) = Ok m ->
       exists h s' a', does c tj s a (KIrsend b n t 0 g cm) (VInt h) s' a' /\ paired Snd a cm k (a_clock a) h g bf p e m a' /\ complete a' h = true) /\
    (none_goes Snd g k -> exec c (KIrsend b n t 0 g cm) s = Abort "MPI_Irsend: no matching receive found").
Proof. exact (@C23_lemma). Qed.
Print Assumptions C23_ready_send.
Theorem C23_ready_send_to_proc_null :
  forall (c : cfg) (tj : Z -> tjunk) (s : sys) (a : astate) (b n t g cm : Z), reach c tj s a -> has_handle a -> known a cm ->
    exists h s' a', does c tj s a (KIrsend b n t MPI_PROC_NULL g cm) (VInt h) s' a' /\ added h (AReq QNullSend) a a' /\ complete a' h = true.
Proof. exact (@C23_null_lemma). Qed.
Print Assumptions C23_ready_send_to_proc_null.
(** The hypotheses are those of C10_ex, C10_none_ex and C15_ex. *)
Example C23_ex : exec default_cfg (KIrsend 600 2 INTT 0 6 1) (ex_s h_sends) = Abort "MPI_Irsend: no matching receive found" /\
  match exec default_cfg (KIrsend 600 2 INTT 0 6 1) (ex_s h_recvs) with Ok (o, _) => o = VInt 5 | _ => False end.
Proof. split; vm_compute; reflexivity. Qed.

(** C24: Iprobe and Probe tell the earliest matching pending send, change nothing the specification can see ([a] is the state
    before and after), and the receive that follows takes that message. *)
Theorem C24_probe :
  forall (c : cfg) (tj : Z -> tjunk) (s : sys) (a : astate) (so g cm : Z) (k : acomm) (st : sarg),
    reach c tj s a -> comm_at a cm = Some k -> so = 0 \/ so = MPI_ANY_SOURCE -> st <> SBad ->
    (forall bf p e, earliest Rcv g k bf p e ->
       exists s' st', does c tj s a (KIprobe so g cm st) (VProbe 1 st') s' a /\ does c tj s a (KProbe so g cm st) (VStatus st') s' a /\
         wrote st (Write (Some 0) (Some (p_tag p))) st' /\
         forall b n t m, has_handle a -> room a -> xfer_res c a (p_buf p) n t b n t = Ok m ->
           exists h s2 a2, does c tj s' a (KIrecv b n t so g cm) (VInt h) s2 a2 /\ paired Rcv a cm k (a_clock a) h g bf p e m a2) /\
    (none_goes Rcv g k ->
       (exists s', does c tj s a (KIprobe so g cm st) (VProbe 0 st) s' a) /\ exec c (KProbe so g cm st) s = Abort "MPI_Probe: no existing match, deadlock").
Proof. exact (@C24_lemma). Qed.
Print Assumptions C24_probe.
(** The hypotheses are those of C09_ex. *)
Example C24_ex : match exec default_cfg (KIprobe 0 5 1 (SAt st0)) (ex_s h_sends) with Ok (o, _) => o = VProbe 1 (SAt (mkStatus 0 5 13 14)) | _ => False end /\
  exec default_cfg (KProbe 0 6 1 (SAt st0)) (ex_s h_sends) = Abort "MPI_Probe: no existing match, deadlock".
Proof. split; vm_compute; reflexivity. Qed.

(** Two finished requests (2, 4) and a pending one (3). *)
Definition h_three : list call := [KInit; KIrecv 500 2 INTT 0 5 1; KIrecv 600 1 INTT 0 9 1; KIsend 100 2 INTT 0 5 1].
Definition sts3 : sargs := SSAt [st0; st0; st0].
Lemma h_three_reach : reach default_cfg ex_tj (ex_s h_three) (ex_a h_three).
Proof. apply ex_reach. vm_compute. reflexivity. Qed.
Lemma h_three_legal : legal_reqs 3 [3; 4; 2] (ex_a h_three).
Proof. apply reqsb_ok. vm_compute. reflexivity. Qed.
Lemma h_three_ready : ready (ex_a h_three) 4 /\ ready (ex_a h_three) 2.
Proof. split; right; eexists; (split; [vm_compute; reflexivity|]); cbn; exists 2, 0; (split; [vm_compute; auto 10|auto]). Qed.
Lemma h_three_not : ~ ready (ex_a h_three) 3.
Proof.
  intros [H|(q & E & F)]; [discriminate|]. revert E. vm_compute. intros E. injection E as <-. destruct F as (x & y & H & D). revert H D. vm_compute.
  intros H D. repeat (destruct H as [H|H]; [first [discriminate H|injection H as <- <-; destruct D; discriminate]|]). exact H.
Qed.

(** C25: MPI_Waitall.  Full statement: as below without the restriction [legal_sts] on MPI_STATUSES_IGNORE (an array of at most
    one request).  It is false: *)
Theorem C25_statuses_ignore_refuted :
  exists (s : sys) (a : astate), reach default_cfg ex_tj s a /\ legal_reqs 2 [4; 2] a /\ (forall r, In r [4; 2] -> ready a r) /\
    exec default_cfg (KWaitall 2 [4; 2] SSIgnore) s = UB "bad status pointer".
Proof.
  exists (ex_s h_three), (ex_a h_three). split; [exact h_three_reach|]. split; [apply reqsb_ok; vm_compute; reflexivity|].
  split; [intros r [<-|[<-|[]]]; apply h_three_ready|]. vm_compute. reflexivity.
Qed.
Print Assumptions C25_statuses_ignore_refuted.
(** Missing: MPI_STATUSES_IGNORE with two or more requests. *)
Theorem C25_waitall_partial :
  forall (c : cfg) (tj : Z -> tjunk) (s : sys) (a : astate) (n : Z) (rs : list Z) (sts : sargs), reach c tj s a -> legal_reqs n rs a -> legal_sts n sts ->
    let es := firstn (Z.to_nat n) rs in
    ((forall r, In r es -> ready a r) ->
       exists s' a' sts', does c tj s a (KWaitall n rs sts) (VAll (map (fun _ => MPI_REQUEST_NULL) es ++ skipn (Z.to_nat n) rs) 1 sts') s' a' /\
         wrote_all sts (map (status_of a) es) sts' /\ released_all (filter (fun r => negb (r =? MPI_REQUEST_NULL)) es) a a') /\
    ((exists r, In r es /\ ~ ready a r) -> exec c (KWaitall n rs sts) s = Abort "MPI_Waitall: request not complete, deadlock").
Proof. exact (@C25_lemma). Qed.
Print Assumptions C25_waitall_partial.
Example C25_ex : reach default_cfg ex_tj (ex_s h_three) (ex_a h_three) /\ legal_reqs 3 [4; 0; 2] (ex_a h_three) /\ legal_sts 3 sts3 /\
  (forall r, In r [4; 0; 2] -> ready (ex_a h_three) r) /\ legal_reqs 3 [3; 4; 2] (ex_a h_three) /\ ~ ready (ex_a h_three) 3.
Proof.
  split; [exact h_three_reach|]. split; [apply reqsb_ok; vm_compute; reflexivity|]. split; [vm_compute; discriminate|].
  split; [intros r [<-|[<-|[<-|[]]]]; [apply h_three_ready|left; reflexivity|apply h_three_ready]|]. split; [exact h_three_legal|exact h_three_not].
Qed.

(** C26: MPI_Testall.  The flag is right (partial theorem); but with flag 0 the complete requests are completed all the same. *)
Theorem C26_testall_all_or_nothing_refuted :
  exists (s s' : sys) (a : astate) (rs rs' : list Z) (sts' : sargs), reach default_cfg ex_tj s a /\ legal_reqs 3 rs a /\ legal_sts 3 sts3 /\
    exec default_cfg (KTestall 3 rs sts3) s = Ok (VAll rs' 0 sts', s') /\ rs = [3; 4; 2] /\ rs' = [3; 0; 0] /\ sts' <> sts3.
Proof.
  destruct (exec default_cfg (KTestall 3 [3; 4; 2] sts3) (ex_s h_three)) as [[o s']| | | |] eqn:E.
  2-5: exfalso; revert E; vm_compute; discriminate.
  assert (Eo : match exec default_cfg (KTestall 3 [3; 4; 2] sts3) (ex_s h_three) with Ok (o, _) => o | _ => VUnit end = VAll [3; 0; 0] 0 (SSAt [st0; mkStatus 2 3 13 14; mkStatus 0 5 13 14])).
  { vm_compute. reflexivity. }
  rewrite E in Eo. subst o. exists (ex_s h_three), s', (ex_a h_three), [3; 4; 2], [3; 0; 0], (SSAt [st0; mkStatus 2 3 13 14; mkStatus 0 5 13 14]).
  split; [exact h_three_reach|]. split; [exact h_three_legal|]. split; [vm_compute; discriminate|]. split; [exact E|]. split; [reflexivity|]. split; [reflexivity|]. discriminate.
Qed.
Print Assumptions C26_testall_all_or_nothing_refuted.
(** What holds: the flag, and that exactly the complete requests are completed.  Missing: that with flag 0 nothing changes. *)
Theorem C26_testall_partial :
  forall (c : cfg) (tj : Z -> tjunk) (s : sys) (a : astate) (n : Z) (rs : list Z) (sts : sargs), reach c tj s a -> legal_reqs n rs a -> legal_sts n sts ->
    let es := firstn (Z.to_nat n) rs in
    exists f s' a' sts', does c tj s a (KTestall n rs sts) (VAll (map (left_of a) es ++ skipn (Z.to_nat n) rs) f sts') s' a' /\
      (f = 0 \/ f = 1) /\ (f = 1 <-> forall r, In r es -> ready a r) /\
      wrote_all sts (map (status_of a) es) sts' /\ released_all (complete_of a es) a a'.
Proof. exact (@C26_lemma). Qed.
Print Assumptions C26_testall_partial.
(** The hypotheses are those of C25_ex. *)
Example C26_ex : legal_reqs 3 [3; 4; 2] (ex_a h_three) /\ legal_sts 3 sts3.
Proof. split; [exact h_three_legal|]. vm_compute. discriminate. Qed.

(** C27: MPI_Testany and MPI_Waitany.  The position is never stored: the index keeps whatever value it had. *)
Theorem C27_index_refuted :
  exists (s : sys) (a : astate), reach default_cfg ex_tj s a /\ legal_reqs 3 [3; 4; 2] a /\ ~ ready a 3 /\ ready a 4 /\
    forall ix, exists s' st', exec default_cfg (KWaitany 3 [3; 4; 2] ix (SAt st0)) s = Ok (VAny [3; 0; 2] ix 1 st', s').
Proof.
  exists (ex_s h_three), (ex_a h_three). split; [exact h_three_reach|]. split; [exact h_three_legal|]. split; [exact h_three_not|]. split; [apply h_three_ready|].
  intros ix. destruct (proj1 (C27_lemma _ _ 3 [3; 4; 2] ix (SAt st0) h_three_reach h_three_legal ltac:(discriminate)) [3] 4 [2] eq_refl) as (s' & a' & st' & rs' & E & _ & (_ & X & _) & _).
  { intros x [<-|[]]. exact h_three_not. }
  { apply h_three_ready. }
  exists s', st'. rewrite X, E. reflexivity.
Qed.
Print Assumptions C27_index_refuted.
(** Missing: the position, which is not reported. *)
Theorem C27_testany_waitany_partial :
  forall (c : cfg) (tj : Z -> tjunk) (s : sys) (a : astate) (n : Z) (rs : list Z) (ix : Z) (st : sarg), reach c tj s a -> legal_reqs n rs a -> st <> SBad ->
    let es := firstn (Z.to_nat n) rs in
    (forall b r e, es = b ++ r :: e -> (forall x, In x b -> ~ ready a x) -> ready a r ->
       exists s' a' st' rs', rs' = b ++ MPI_REQUEST_NULL :: skipn (S (length b)) rs /\
         does c tj s a (KTestany n rs ix st) (VAny rs' ix 1 st') s' a' /\ does c tj s a (KWaitany n rs ix st) (VAny rs' ix 1 st') s' a' /\
         wrote st (status_of a r) st' /\ released_all (filter (fun r => negb (r =? MPI_REQUEST_NULL)) [r]) a a') /\
    ((forall x, In x es -> ~ ready a x) ->
       (exists s', does c tj s a (KTestany n rs ix st) (VAny rs ix 0 st) s' a) /\
       exec c (KWaitany n rs ix st) s = Abort "MPI_Waitany: no requests complete, deadlock").
Proof. exact (@C27_lemma). Qed.
Print Assumptions C27_testany_waitany_partial.
(** The hypotheses are met in C27_index_refuted, and with only the pending request: *)
Example C27_ex : legal_reqs 1 [3] (ex_a h_three) /\ (forall x, In x [3] -> ~ ready (ex_a h_three) x).
Proof. split; [apply reqsb_ok; vm_compute; reflexivity|]. intros x [<-|[]]. exact h_three_not. Qed.

(** C28: MPI_Testsome and MPI_Waitsome.  The positions are never stored, and MPI_Waitsome does not abort when nothing is complete. *)
Theorem C28_waitsome_refuted :
  exists (s : sys) (a : astate), reach default_cfg ex_tj s a /\ legal_reqs 3 [3; 4; 2] a /\ legal_reqs 1 [3] a /\ ~ ready a 3 /\ ready a 4 /\ ready a 2 /\
    (exists s' sts', exec default_cfg (KWaitsome 3 [3; 4; 2] [88; 88; 88] sts3) s = Ok (VSome [3; 0; 0] 2 [88; 88; 88] sts', s')) /\
    (exists s', exec default_cfg (KWaitsome 1 [3] [88] (SSAt [st0])) s = Ok (VSome [3] 0 [88] (SSAt [st0]), s')).
Proof.
  exists (ex_s h_three), (ex_a h_three). split; [exact h_three_reach|]. split; [exact h_three_legal|]. split; [apply reqsb_ok; vm_compute; reflexivity|].
  split; [exact h_three_not|]. split; [apply h_three_ready|]. split; [apply h_three_ready|]. split.
  - eexists. eexists. vm_compute. reflexivity.
  - eexists. vm_compute. reflexivity.
Qed.
Print Assumptions C28_waitsome_refuted.
(** Missing: the positions, and the abort of MPI_Waitsome. *)
Theorem C28_testsome_waitsome_partial :
  forall (c : cfg) (tj : Z -> tjunk) K (s : sys) (a : astate) (n : Z) (rs ix : list Z) (sts : sargs), K = KTestsome \/ K = KWaitsome ->
    reach c tj s a -> legal_reqs n rs a -> legal_sts n sts ->
    let es := firstn (Z.to_nat n) rs in
    exists cnt s' a' sts', does c tj s a (K n rs ix sts) (VSome (map (left_of a) es ++ skipn (Z.to_nat n) rs) cnt ix sts') s' a' /\
      cnt = Z.of_nat (length (filter (complete a) es)) /\
      wrote_all sts (map (status_of a) es) sts' /\ released_all (complete_of a es) a a'.
Proof. exact (@C28_lemma). Qed.
Print Assumptions C28_testsome_waitsome_partial.
(** The hypotheses are those of C26_ex. *)

(** C29: MPI_Request_free.  For a pending operation it is false: after a pending receive is freed and another one posted, two
    messages are delivered to the second receive. *)
Definition h_freed : list call := [KInit; KIrecv 500 1 INTT 0 5 1; KRequestFree 2; KIrecv 600 1 INTT 0 9 1; KIsend 100 1 INTT 0 9 1; KIsend 204 1 INTT 0 9 1].
Theorem C29_pending_request_refuted :
  (* the receive (request 2) is pending when it is freed *)
  reach default_cfg ex_tj (ex_s (firstn 2 h_freed)) (ex_a (firstn 2 h_freed)) /\
  (exists q, req_at (ex_a (firstn 2 h_freed)) 2 = Some q /\ ~ finished (ex_a (firstn 2 h_freed)) q) /\
  (* the first send with tag 9 is received at 600, and so is the second *)
  (exists s, ex_run (firstn 5 h_freed) = Ok ([VUnit; VInt 2; VInt 0; VInt 2; VInt 3], s) /\ s_mem s 600 = ex_mem 100) /\
  (exists s, ex_run (h_freed ++ [KWait 4 SIgnore]) = Ok ([VUnit; VInt 2; VInt 0; VInt 2; VInt 3; VInt 4; VWait 0 SIgnore], s) /\ s_mem s 600 = ex_mem 204) /\
  (* without the freed receive the second send stays pending *)
  ex_run [KInit; KIrecv 600 1 INTT 0 9 1; KIsend 100 1 INTT 0 9 1; KIsend 204 1 INTT 0 9 1; KWait 4 SIgnore] = Abort "MPI_Wait: request not complete, deadlock" /\
  ex_mem 100 <> ex_mem 204.
Proof.
  split; [apply ex_reach; vm_compute; reflexivity|]. split.
  { eexists. split; [vm_compute; reflexivity|]. intros (x & y & H & D). revert H. vm_compute. intros [H|[]]. discriminate. }
  split; [eexists; split; vm_compute; reflexivity|]. split; [eexists; split; vm_compute; reflexivity|]. split; [vm_compute; reflexivity|vm_compute; discriminate].
Qed.
Print Assumptions C29_pending_request_refuted.
(** What holds: freeing a request whose operation is finished (or a null request).  Missing: pending operations. *)
Theorem C29_request_free_partial :
  forall (c : cfg) (tj : Z -> tjunk) (s : sys) (a : astate) (r : Z) (q : areq), reach c tj s a -> req_at a r = Some q -> finished a q ->
    exists s' a', does c tj s a (KRequestFree r) (VInt MPI_REQUEST_NULL) s' a' /\ released r a a'.
Proof. exact (@C29_lemma). Qed.
Print Assumptions C29_request_free_partial.
Theorem C29_null_request_partial :
  forall (c : cfg) (tj : Z -> tjunk) (s : sys) (a : astate), reach c tj s a ->
    exists s', does c tj s a (KRequestFree MPI_REQUEST_NULL) (VInt MPI_REQUEST_NULL) s' a.
Proof. exact (@C29_null_lemma). Qed.
Print Assumptions C29_null_request_partial.
(** The hypotheses are those of C18_ex (request 2). *)
